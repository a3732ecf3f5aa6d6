(** The command [algorithms]: mutagenyx/src/mutations_info.rs, and the table of
    descriptions it shows (mutagenyx_lib/src/mutation.rs:316-539).

    [cols] is the width of the terminal, or 80 when there is none
    ([get_terminal_size], mutations_info.rs:41-56).  [keys] is the order in which
    the hash map of the descriptions yields its keys. *)
From Coq Require Import String Ascii List NArith Bool.
From Verif Require Import Base Json MutationType Printer.
Import ListNotations.
Open Scope string_scope.
Open Scope list_scope.

(** [MutationAlgorithmDescription] (mutation.rs:317-326). *)
Record description : Type := Description
  { d_summary : string; d_details : string; d_operators : list string; d_examples : string }.

(** [all_algorithm_descriptions] (mutation.rs:329-539), in the order of the
    insertions. *)
Definition descriptions : list (mutation_type * description) :=
  [
    (Generic ArithmeticBinaryOp, Description
      "Randomly replace the arithmetic operator in a binary expression."
      "This algorithm will replace the operators in the operator list with another operator from the same list."
      arithmetic_operators
      "a + b might become a - b, a * y might become a / b");
    (Generic LogicalBinaryOp, Description
      "Randomly replace the logical operator in a binary expression."
      "This algorithm will replace the operators in the operator list with another operator from the same list."
      logical_operators
      "a || b might become a && b");
    (Generic BitwiseBinaryOp, Description
      "Randomly replaces a bitwise operator in a binary expression."
      "Find bitwise binary operation expressions in the program and replace the operator in the expression with another operator from the list of bitwise operators."
      bitwise_operators
      "a & b might become a | b");
    (Generic BitshiftBinaryOp, Description
      "Randomly replaces a bitshift operator in a binary expression."
      "Find bitshift binary operator expressions in the program and replace the operator in the expression with another operator from the list of bitshift operators."
      bitshift_operators
      "a << b might become a >> b");
    (Generic ComparisonBinaryOp, Description
      "Randomly replace the comparison operator in a binary expression"
      "Find logical binary operator expressions in the program and replace the operator in the expression with another operator from the list of logical operators."
      comparison_operators
      "a < b might become a > b, a == b might become a <= b");
    (Generic Assignment, Description
      "Replace right hand side of assignment expressions with type appropriate random alternative values."
      "Find assignment expressions in the program and evaluate the left hand side for type. After finding the type, attempt to replace the right hand size of the expression with a randomly generated type appropriate value. This algorithm currently only operates on expressions that have integer, floating-point, or boolean types."
      []
      "a = b + 10; where a is of type uint, might become a = 29494243244;");
    (Generic DeleteStatement, Description
      "Randomly select a statement in a program block and delete the statement."
      "For languages that have variable declarations and return statements the algorithm will not delete declarations or return statements in order to minimize compilation issues caused by the mutation."
      []
      "");
    (Generic FunctionCall, Description
      "Replace function calls with one of the randomly selected arguments to the function call."
      "For function calls that have one or more arguments, randomly select an argument from the argument list and replace the entire function call in the expression with the selected argument. This mutation algorithm will attempt to select arguments of the correct type (the return type of the function call) to minimize compilation issues caused by the mutation."
      []
      "a = foo(b, c); might become a = c;");
    (Generic IfStatement, Description
      "Replace the condition expression in an if(c) statement with true, false, or the logical negation of the condition if(!(c))."
      ""
      []
      "if(a > b) might become if(true), if(c == 10) might become if(! (c == 1))");
    (Generic Integer, Description
      "Randomly replace integer constants with random values."
      "The mutation algorithm chooses between three possible behaviors when mutating the constant: add one to the existing value, subtract one from the existing value, or select a random integer value between 0:max(type of the constant)."
      []
      "a = 10; might become a = 11;, a = 10 might become a = 9;, a = 10 might become a = 2932;");
    (Generic SwapFunctionArguments, Description
      "Randomly swap two arguments in a function call."
      "Find function calls in the program with two or more arguments, randomly select two arguments, and swap them.  When possible, the mutation algorithm will select arguments with the same type to avoid compilation issues."
      []
      "a = foo(bar, bat, bug); might become a = foo(but, bat, bar);");
    (Generic SwapOperatorArguments, Description
      "Swap left and right hand sides of binary expressions with non-commutative operators."
      "Select a random binary expression that has a non-commutative operator and swap the left and right hand sides of the expression."
      non_commutative_operators
      "thing = a - b; might become thing = b - a;, this = that << 5; might become this = 5 << that;");
    (Generic SwapLines, Description
      "Randomly select two statements in a block and swap the two statements."
      "The mutation algorithm will attempt to identify expression statements and to avoid return statements when selecting statements to swap."
      []
      "a = foo - bar(); ... foo += 8; might become foo += 8; ... a = foo - bar();");
    (Generic UnaryOp, Description
      "Random replace unary operators for both prefix and postfix expressions with operators from the unary operator list."
      "This mutation algorithm will not convert a prefix unary expression into a postfix unary expression."
      prefix_operators
      "++a; might become ~a;, a-- might become a++.");
    (Solidity Require, Description
      "Randomly select a use of the Solidity require() function and replace the argument with the logical negation of the argument expression."
      "This mutation algorithm only works for Solidity programs."
      []
      "require(b > 10); would become require(!(b > 0));");
    (Solidity UncheckedBlock, Description
      "Randomly select an expression statement in a block of statements and decorate the statement with the Solidity unchecked{} block."
      "This mutation algorithm only works for Solidity programs."
      []
      "a = b + c; would become unchecked{ a = b + c; }");
    (Solidity ElimDelegateCall, Description
      "Replace delegatecall() functions with call()."
      "This mutation algorithm only works for Solidity programs."
      []
      "let a := foo.delegatecall() would become let a := foo.call()") ].

(** [descriptions[key]]: a panic when the key is absent. *)
Fixpoint find_description (t : mutation_type) (l : list (mutation_type * description)) : res description :=
  match l with
  | [] => Panic "key not found"
  | (t', d) :: l => if mt_eqb t t' then Ok d else find_description t l
  end.

(** [sort_unstable_by] on the names (mutations_info.rs:86-90, 152-156); the
    names differ, so every sorting algorithm gives the same list. *)
Fixpoint insert_by_name (t : mutation_type) (l : list mutation_type) : list mutation_type :=
  match l with
  | [] => [t]
  | t' :: l' => if str_ltb (show_mt t') (show_mt t) then t' :: insert_by_name t l' else t :: l
  end.
Definition sort_by_name (l : list mutation_type) : list mutation_type := fold_right insert_by_name [] l.

(** The longest name (mutations_info.rs:76-82, 143-149). *)
Definition name_width (l : list mutation_type) : N :=
  fold_left (fun w t => if (w <? slen (show_mt t))%N then slen (show_mt t) else w) l 0%N.

(** pretty_printer.rs:67-73 and 94-100. *)
Definition increase_indent_by (g : geo) (amount : N) (st : pstate) : pstate :=
  PState (p_row st) (p_col st)
    (if (p_ind st + amount <=? max_indent g)%N then (p_ind st + amount)%N else max_indent g).
Definition decrease_indent_by (amount : N) (st : pstate) : pstate :=
  PState (p_row st) (p_col st) (if (p_ind st <? amount)%N then 0%N else (p_ind st - amount)%N).

(** [write_spaces], [write_tokens] (pretty_printer.rs:171-180, 226-236). *)
Fixpoint write_spaces (g : geo) (n : nat) (st : pstate) : pres :=
  match n with
  | O => Ok ("", st)
  | S n => write_space g st ;;; write_spaces g n
  end.
Fixpoint write_tokens (g : geo) (token : string) (n : nat) (st : pstate) : pres :=
  match n with
  | O => Ok ("", st)
  | S n => write_token g token st ;;; write_tokens g token n
  end.

(** [write_flowable_text]; the fuel is enough ([flow_fuel_enough], FlowFacts.v). *)
Definition flowable (g : geo) (text next : string) (st : pstate) : pres :=
  write_flow (flow_fuel text) g text next st.

(** The name, padded to the width of the longest one (mutations_info.rs:101-112
    and 167-178).  The subtraction cannot go below zero. *)
Definition write_name (g : geo) (w : N) (t : mutation_type) (st : pstate) : pres :=
  write_token g (show_mt t) st ;;; write_spaces g (N.to_nat (w - slen (show_mt t))) ;;; write_space g.

(** The loop of [display_simple_algorithm_list] (mutations_info.rs:96-122). *)
Fixpoint list_loop (g : geo) (w : N) (l : list mutation_type) (st : pstate) : pres :=
  match l with
  | [] => Ok ("", st)
  | t :: l' =>
      let? d := find_description t descriptions in
      write_name g w t st ;;;
      (fun st => flowable g (d_summary d) "" (increase_indent_by g (w + 1) st)) ;;;
      (fun st => Ok ("", decrease_indent_by (w + 1) st)) ;;;
      (fun st => match l' with [] => Ok ("", st) | _ => write_newline st ;;; write_newline end) ;;;
      list_loop g w l'
  end.

(** [display_simple_algorithm_list] (mutations_info.rs:60-125). *)
Definition display_list (oc : bool) (cols : N) (keys : list mutation_type) : res string :=
  let? (s, _) := list_loop (Geo 1 cols oc) (name_width keys) (sort_by_name keys) fresh ;;; write_newline in
  Ok s.

(** [write_lines] (mutations_info.rs:263-293). *)
Definition write_lines (g : geo) (category text : string) (w : N) (do_indent : bool) (st : pstate) : pres :=
  Ok ("", increase_indent_by g w st) ;;;
  (fun st => if do_indent then write_indent g st ;;; write_space g else Ok ("", st)) ;;;
  (fun st => if is_empty_str category then Ok ("", st) else
     write_token g category st ;;; write_newline ;;; write_indent g ;;; write_space g ;;;
     write_tokens g "-" (N.to_nat (slen category)) ;;;
     write_newline ;;; write_newline ;;; write_indent g ;;; write_space g) ;;;
  (fun st => flowable g text "" (increase_indent g st)) ;;;
  (fun st => Ok ("", decrease_indent_by (w + 1) st)).

(** [format!("{:?}", operators)] for strings without characters to escape. *)
Definition show_operators (l : list string) : string :=
  String.append "[" (String.append (String.concat ", " (map quoted l)) "]").

(** One part of an entry: two line breaks and the lines, when there is text
    (mutations_info.rs:190-235). *)
Definition write_part (g : geo) (w : N) (category text : string) (st : pstate) : pres :=
  write_newline st ;;; write_newline ;;; write_lines g category text w true.

(** The loop of [display_algorithm_descriptions] (mutations_info.rs:162-244). *)
Fixpoint describe_loop (g : geo) (w : N) (l : list mutation_type) (st : pstate) : pres :=
  match l with
  | [] => Ok ("", st)
  | t :: l' =>
      let? d := find_description t descriptions in
      write_name g w t st ;;;
      write_lines g "" (d_summary d) w false ;;;
      (fun st => if is_empty_str (d_details d) then Ok ("", st) else write_part g w "" (d_details d) st) ;;;
      (fun st => match d_operators d with [] => Ok ("", st)
                 | ops => write_part g w "Operators:" (show_operators ops) st end) ;;;
      (fun st => if is_empty_str (d_examples d) then Ok ("", st) else write_part g w "Examples:" (d_examples d) st) ;;;
      (fun st => match l' with [] => Ok ("", st) | _ => write_newline st ;;; write_newline ;;; write_newline end) ;;;
      describe_loop g w l'
  end.

(** [display_algorithm_descriptions] (mutations_info.rs:128-246). *)
Definition display_descriptions (oc : bool) (cols : N) (keys : list mutation_type) : res string :=
  let? (s, _) := describe_loop (Geo 1 cols oc) (name_width keys) (sort_by_name keys) fresh ;;; write_newline in
  Ok s.

(** [display_mutations_info] (mutations_info.rs:27-39). *)
Definition algorithms (oc : bool) (cols : N) (keys : list mutation_type) (list describe : bool) : res string :=
  if list then display_list oc cols keys
  else if describe then display_descriptions oc cols keys
  else Ok "".
