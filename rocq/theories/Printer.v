(** The layout engine of the pretty-printer
    (mutagenyx_lib/src/pretty_printer.rs, string.rs).

    Streams: the crate prints either into a [Vec<u8>] or into a file.  Writing
    is modelled as always succeeding; the text written so far is what the
    functions return.  (The node printers call the free functions
    pretty_printer.rs:439-578, which log an I/O error and go on.)
    [cfg!(target_os = "windows")] is taken to be false: the newline is "\n".
    Widths, columns and rows are [usize]; they are kept as unbounded [N] except
    for the two subtractions of the code, which can go below zero. *)
From Coq Require Import String Ascii List NArith Bool.
From Verif Require Import Base Json.
Import ListNotations.
Open Scope string_scope.
Open Scope list_scope.

(** The fixed part of a [PrettyPrinter]: [tab_width], [page_width]
    (pretty_printer.rs:11-18), and whether the crate is built with overflow
    checks (debug) or without (release). *)
Record geo : Type := Geo { g_tab : N; g_page : N; g_oc : bool }.

(** The moving part: [row], [column], [indent]. *)
Record pstate : Type := PState { p_row : N; p_col : N; p_ind : N }.

(** pretty_printer.rs:38-46. *)
Definition fresh : pstate := PState 1 1 0.

(** pretty_printer.rs:36,45: [((page_width as f64 / tab_width as f64) - 1.0) as usize].
    A float to integer cast saturates: a negative value and NaN give 0,
    infinity gives [usize::MAX].  (Exact for widths below 2^53.) *)
Definition max_indent (g : geo) : N :=
  if (g_tab g =? 0)%N then (if (g_page g =? 0)%N then 0%N else u64_max)
  else (g_page g / g_tab g - 1)%N.

(** pretty_printer.rs:52-58. *)
Definition increase_indent (g : geo) (st : pstate) : pstate :=
  PState (p_row st) (p_col st)
         (if (max_indent g <=? p_ind st)%N then max_indent g else (p_ind st + 1)%N).

(** pretty_printer.rs:79-84. *)
Definition decrease_indent (st : pstate) : pstate :=
  PState (p_row st) (p_col st) (if (p_ind st =? 0)%N then p_ind st else (p_ind st - 1)%N).

(** pretty_printer.rs:104-106. *)
Definition indent_length (g : geo) (st : pstate) : N := (p_ind st * g_tab g)%N.

(** pretty_printer.rs:113-122. *)
Fixpoint space_string (n : nat) : string :=
  match n with O => "" | S n => String " " (space_string n) end.

(** pretty_printer.rs:126-128. *)
Definition indent_string (g : geo) (st : pstate) : string :=
  space_string (N.to_nat (indent_length g st)).

(** What a printing function does: the text it writes and the new state. *)
Definition pres := res (string * pstate).

Definition and_print (r : pres) (f : pstate -> pres) : pres :=
  let? (s, st) := r in
  let? (s', st') := f st in
  Ok (String.append s s', st').
Notation "r ;;; f" := (and_print r f) (at level 55, left associativity).

(** write_basic_string, pretty_printer.rs:426-436 (called by all the others):
    the column advances by the byte length. *)
Definition write_basic (s : string) (st : pstate) : pres :=
  Ok (s, PState (p_row st) (p_col st + slen s) (p_ind st)).

(** pretty_printer.rs:135-141. *)
Definition write_indent (g : geo) (st : pstate) : pres :=
  let indention := indent_string g st in
  if is_empty_str indention then Ok ("", st) else write_basic indention st.

Definition nl : string := String "010" EmptyString.

(** pretty_printer.rs:148-155. *)
Definition write_newline (st : pstate) : pres :=
  Ok (nl, PState (p_row st + 1) 1 (p_ind st)).

(** pretty_printer.rs:162-169. *)
Definition write_space (g : geo) (st : pstate) : pres :=
  (if (p_col st =? g_page g)%N then write_newline st ;;; write_indent g else Ok ("", st))
  ;;; write_basic " ".

(** [a - b] on [usize]: a panic with overflow checks, wrap-around without. *)
Definition usub (g : geo) (a b : N) : res N :=
  if (b <=? a)%N then Ok (a - b)%N
  else if g_oc g then Panic "attempt to subtract with overflow"
  else Ok (two64 - (b - a))%N.

(** pretty_printer.rs:188-217. *)
Definition write_token (g : geo) (token : string) (st : pstate) : pres :=
  (if (g_page g <? p_col st)%N then write_newline st else Ok ("", st)) ;;;
  (fun st =>
    if (g_page g <? slen token)%N then
      if (indent_length g st <? p_col st)%N then
        write_newline st ;;; write_indent g ;;; write_basic token
      else write_basic token st
    else
      let? space_left := usub g (g_page g) (p_col st) in
      (if (space_left <? slen token)%N then write_newline st ;;; write_indent g
       else Ok ("", st)) ;;; write_basic token).

(** pretty_printer.rs:254-258 and 276-284: the text handed to [write_token]. *)
Definition quoted (s : string) : string := String """" (String.append s """").
Definition triple_quoted (s : string) : string :=
  String.append """""""" (String.append s """""""").

(** ** Flowable text *)

(** pretty_printer.rs:326-328: every newline becomes a space. *)
Fixpoint unline (s : string) : string :=
  match s with
  | EmptyString => EmptyString
  | String c s => String (if Ascii.eqb c "010" then " " else c)%char (unline s)
  end.

(** string.rs:15-25 for the pattern "  ": find the first occurrence and remove
    one character there, ... *)
Fixpoint drop_double (s : string) : option string :=
  match s with
  | String a s' =>
      match s' with
      | String b _ =>
          if (Ascii.eqb a " " && Ascii.eqb b " ")%bool then Some s'
          else option_map (String a) (drop_double s')
      | EmptyString => None
      end
  | EmptyString => None
  end.

(** ... until there is none left.  Each round removes a byte, so as many rounds
    as there are bytes are enough. *)
Fixpoint remove_doubles (fuel : nat) (s : string) : string :=
  match fuel with
  | O => s
  | S fuel => match drop_double s with
              | None => s
              | Some s' => remove_doubles fuel s'
              end
  end.

(** pretty_printer.rs:325-332. *)
Definition normalise (s : string) : string :=
  let t := unline s in remove_doubles (String.length t) t.

(** [bytes[i] as char == ' ']. *)
Fixpoint space_at (i : nat) (s : string) : bool :=
  match s, i with
  | EmptyString, _ => false
  | String c _, O => Ascii.eqb c " "
  | String _ s, S i => space_at i s
  end.

(** The scan pretty_printer.rs:349-367: [n] bytes still to look at, the current
    index [i], [previous_char_was_space], [index_of_start_of_word]. *)
Fixpoint word_scan (n i : nat) (prev : bool) (start : nat) (s : string) : nat :=
  match n, s with
  | S n, String c s =>
      if Ascii.eqb c " " then word_scan n (S i) true start s
      else word_scan n (S i) false (if prev then i else start) s
  | _, _ => start
  end.

(** pretty_printer.rs:369-393: where the text is broken, and what is left for
    the next line.  The slices are taken next to an ASCII space or at 0, so they
    are on character boundaries. *)
Definition break_at (space_left : nat) (t : string) : nat :=
  if space_at space_left t then space_left else word_scan space_left 0 false 0 t.

Definition rest_from (k : nat) (t : string) : string :=
  if space_at k t then str_drop (S k) t else str_drop k t.

(** write_flowable_text, pretty_printer.rs:313-411.  The Rust function calls
    itself; [fuel] bounds the depth of the calls. *)
Fixpoint write_flow (fuel : nat) (g : geo) (text next : string) (st : pstate) : pres :=
  match fuel with
  | O => Diverge
  | S fuel =>
      let t := normalise text in
      let? space_left := usub g (g_page g) (p_col st) in
      if (space_left <? slen t)%N then
        if (space_left =? 0)%N then
          write_newline st ;;; write_indent g ;;; write_token g next ;;;
          write_flow fuel g t next
        else
          let k := break_at (N.to_nat space_left) t in
          let first_part := str_take k t in
          let rest := rest_from k t in
          (if is_empty_str first_part then Ok ("", st) else write_basic first_part st) ;;;
          write_newline ;;; write_indent g ;;; write_token g next ;;;
          (fun st => if is_empty_str rest then Ok ("", st) else write_flow fuel g rest next st)
      else write_basic t st
  end.

(** More calls than this never help: see [flow_fuel_enough] (FlowFacts.v). *)
Definition flow_fuel (text : string) : nat := 2 * String.length text + 4.

(** ** Programs for the layout engine

    A node printer only calls the functions above, in an order that depends on
    the node and not on the printer state.  We describe what a node printer does
    as the list of the calls it makes. *)
Inductive cmd : Type :=
| Tok (s : string)                    (* write_token, write_string, write_triple_string *)
| Space                               (* write_space *)
| Newline                             (* write_newline *)
| Indent                              (* write_indent *)
| Inc                                 (* increase_indent *)
| Dec                                 (* decrease_indent *)
| Flow (text next : string)           (* write_flowable_text *)
| FlowOf (body : list cmd) (next : string)
    (* write_flowable_text of the text a new PrettyPrinter::new(4, 150) gives for [body]
       (vyper/pretty_printer.rs:254-263) *)
| Abort (m : string).                 (* a panic in the node printer *)

(** The geometry the crate always uses. *)
Definition std_geo (oc : bool) : geo := Geo 4 150 oc.

Fixpoint exec1 (g : geo) (c : cmd) (st : pstate) {struct c} : pres :=
  match c with
  | Tok s => write_token g s st
  | Space => write_space g st
  | Newline => write_newline st
  | Indent => write_indent g st
  | Inc => Ok ("", increase_indent g st)
  | Dec => Ok ("", decrease_indent st)
  | Flow text next => write_flow (flow_fuel text) g text next st
  | FlowOf body next =>
      let? (text, _) :=
        (fix go (l : list cmd) (st : pstate) : pres :=
           match l with
           | [] => Ok ("", st)
           | c :: l => exec1 (std_geo (g_oc g)) c st ;;; (fun st => go l st)
           end) body fresh in
      write_flow (flow_fuel text) g text next st
  | Abort m => Panic m
  end.

Fixpoint exec (g : geo) (l : list cmd) (st : pstate) : pres :=
  match l with
  | [] => Ok ("", st)
  | c :: l => exec1 g c st ;;; exec g l
  end.

(** The text a fresh printer of the crate's geometry gives. *)
Definition print_text (oc : bool) (l : list cmd) : res string :=
  let? (s, _) := exec (std_geo oc) l fresh in Ok s.

(** ** Shared by the node printers (node_printer_helpers.rs)

    A node printer gets the printer of its sub-nodes as an argument
    ([traverse_sub_node_and_print], node_printer_helpers.rs:17-25). *)

(** [if let Some(x) = ...  { ... }]. *)
Definition opt {A} (o : option A) (f : A -> list cmd) : list cmd :=
  match o with Some a => f a | None => [] end.

Definition when (b : bool) (l : list cmd) : list cmd := if b then l else [].

(** [if let Some(child) = node.get(k)] then print the child. *)
Definition sub (f : json -> list cmd) (n : json) (k : string) : list cmd := opt (oget n k) f.

(** [node.get(k)] followed by [as_array()]. *)
Definition arr_of (n : json) (k : string) : option (list json) :=
  match oget n k with Some v => as_array v | None => None end.

(** A loop over an array: [f] on each element, [g] before each element that
    follows another one, given that element
    (print_array_helper_with_node_handler_and_space_formatter, 70-93). *)
Fixpoint each (f g : json -> list cmd) (l : list json) : list cmd :=
  match l with
  | [] => []
  | x :: l => f x ++ match l with [] => [] | y :: _ => g y end ++ each f g l
  end.

(** print_array_helper (36-55). *)
Definition commas (f : json -> list cmd) (l : list json) : list cmd :=
  each f (fun _ => [Tok ","; Space]) l.

Definition not_empty {A} (l : list A) : bool := match l with [] => false | _ => true end.
