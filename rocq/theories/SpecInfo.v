(** What the command that shows the algorithms is expected to show. *)
From Coq Require Import String Ascii List NArith Bool Permutation Sorted.
From Verif Require Import Base Json MutationType Printer SpecPrinter SpecOps Info.
Import ListNotations.
Open Scope string_scope.
Open Scope list_scope.

(** The order of a dictionary: at the first byte that differs, or when one word
    is the beginning of the other. *)
Inductive before : string -> string -> Prop :=
| before_end c s : before EmptyString (String c s)
| before_here c d s t : (N_of_ascii c < N_of_ascii d)%N -> before (String c s) (String d t)
| before_later c s t : before s t -> before (String c s) (String c t).

(** All algorithms, each once, in the order of their names. *)
Definition alphabetical (l : list mutation_type) : Prop :=
  (forall t, In t l) /\ StronglySorted (fun t t' => before (show_mt t) (show_mt t')) l.

(** The description of an algorithm in the table. *)
Definition described (t : mutation_type) (d : description) : Prop := In (t, d) descriptions.

(** The words of an entry of the short list. *)
Definition short_entry (t : mutation_type) (e : list string) : Prop :=
  exists d, described t d /\ e = show_mt t :: words (d_summary d).

(** The characters of an entry of the long list, blanks left out. *)
Definition part (heading body : string) : string :=
  if is_empty_str body then "" else String.append heading (strip body).
Definition operators_text (l : list string) : string :=
  match l with [] => "" | _ => String.append "[" (String.append (String.concat "," (map quoted l)) "]") end.
Definition long_entry (t : mutation_type) (e : string) : Prop :=
  exists d, described t d /\
  e = fold_right String.append "" [show_mt t; strip (d_summary d); part "" (d_details d);
        part "Operators:----------" (operators_text (d_operators d)); part "Examples:---------" (d_examples d)].

(** A command comes to an end when it neither recurses for ever nor panics. *)
Definition comes_to_an_end (r : res string) : Prop := exists o, r = Ok o.

(** An operation with the operator [op], of the kind an algorithm is about. *)
Definition sol_operation (t : mutation_type) (op : string) (n : json) : Prop :=
  has_field n "operator" (JStr op) /\
  match t with
  | Generic UnaryOp => is_sol "UnaryOperation" n /\ has_field n "prefix" (JBool true)
  | _ => is_sol "BinaryOperation" n
  end.

(** What Vyper's AST calls the operators, and how they are written. *)
Definition vy_symbols : list (string * string) :=
  [("Add", "+"); ("Sub", "-"); ("Mult", "*"); ("Div", "/"); ("Mod", "%"); ("Pow", "**"); ("And", "&&"); ("Or", "||");
   ("BitAnd", "&"); ("BitOr", "|"); ("BitXor", "^"); ("Eq", "=="); ("NotEq", "!="); ("Gt", ">"); ("GtE", ">="); ("Lt", "<"); ("LtE", "<=");
   ("LShift", "<<"); ("RShift", ">>")].
Definition vy_operation (op : string) (n : json) : Prop :=
  (is_vy "BinOp" n \/ is_vy "BoolOp" n \/ is_vy "Compare" n) /\
  exists o name, has_field n "op" o /\ is_vy name o /\ In (name, op) vy_symbols.
