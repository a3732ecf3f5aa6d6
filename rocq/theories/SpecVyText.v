(** Vyper programs as abstract syntax, the text a programmer would write for
    them, and which JSON nodes of the Vyper compiler stand for them.  Nothing here
    mentions the printer; [v_...] names of nodes are those of the compiler. *)
From Coq Require Import String Ascii List NArith ZArith Bool.
From Verif Require Import Base Json SpecPrinter SpecLiteral.
Import ListNotations.
Open Scope string_scope.
Open Scope list_scope.

(** ** Syntax *)

Inductive vexp : Type :=
| VName (x : string)
| VInt (z : Z)
| VVerbatim (hex : bool) (s : string)        (* decimal and 0x literals *)
| VStr (s : string)
| VBytes (bs : string)
| VConst (b : option bool)                   (* True, False, None *)
| VBin (op : string) (a b : vexp)            (* [op] is the symbol *)
| VCmp (op : string) (a b : vexp)
| VLogic (both : bool) (a b : vexp) (more : list vexp)   (* and, or *)
| VNot (a : vexp)
| VInvert (a : vexp)
| VNeg (a : vexp)
| VAttr (a : vexp) (x : string)
| VSub (a : vexp) (i : vexp) (more : list vexp)   (* a[i, ...] *)
| VCall (f : vexp) (args : list vexp) (kws : list (string * vexp))
| VList (l : list vexp)
| VTuple (l : list vexp)                     (* inside another expression *)
| VDict (l : list (vexp * vexp)).

(** Where a tuple may stand without parentheses. *)
Inductive vtop : Type := One (e : vexp) | Many (l : list vexp).

Inductive vstmt : Type :=
| VsExpr (e : vexp)
| VsAssign (t e : vtop)
| VsAug (t : vexp) (op : string) (e : vexp)
| VsAnn (t ty : vexp) (e : option vexp)
| VsReturn (e : option vtop)
| VsAssert (e : vexp) (msg : option vexp)
| VsRaise (e : vexp)
| VsLog (e : vexp)
| VsWord (w : string)                        (* pass, break, continue *)
| VsIf (e : vexp) (body orelse : list vstmt)
| VsFor (t it : vexp) (body : list vstmt).

(** An argument: name, type, default. *)
Record varg : Type := VArg { va_name : string; va_type : option vexp; va_default : option vexp }.

(** A function of an interface: name, arguments, result, mutability. *)
Record vsig : Type := VSig { vg_name : string; vg_args : list varg; vg_ret : option vtop; vg_body : vexp }.

Inductive vdef : Type :=
| VdFun (decorators : list vexp) (f : string) (args : list varg) (ret : option vtop) (body : list vstmt)
| VdVar (x : vexp) (public constant immutable : bool) (ty : vtop) (e : option vexp)
| VdFields (kw f : string) (body : list vstmt)      (* struct *)
| VdInterface (f : string) (sigs : list vsig)
| VdBlock (kw f : string) (body : list vstmt)       (* event, enum *)
| VdImport (m : string) (alias : option string)
| VdFrom (m : option string) (x : string) (alias : option string).

(** ** Text *)

Definition sjoin (sep : string) (l : list string) : string := String.concat sep l.

Fixpoint spaces (n : nat) : string := match n with O => "" | S n => String " " (spaces n) end.

Definition newline : string := String "010" EmptyString.

(** [margin tab ind]: the blanks at the start of a line at level [ind]. *)
Definition margin (tab ind : N) : string := spaces (N.to_nat (ind * tab)).

(** How tightly an expression holds together: 1 for the binary operators, 2 for
    [not], 3 for a sign or [~], 4 for everything else that is not a name, a call,
    a member or a list, which are 5. *)
Definition binding (e : vexp) : nat :=
  match e with
  | VBin _ _ _ | VCmp _ _ _ | VLogic _ _ _ _ => 1
  | VNot _ => 2
  | VInvert _ | VNeg _ => 3
  | VInt z => if (z <? 0)%Z then 3 else 4
  | VVerbatim false _ => 4
  | _ => 5
  end.

Definition paren (b : bool) (s : string) : string :=
  if b then String.append "(" (String.append s ")") else s.

Definition cat (l : list string) : string := fold_right String.append "" l.

(** A power binds more tightly than a sign on its left. *)
Definition left_side (op : string) : nat := if op =?s "**" then 4 else 3.

(** Every binary operation inside another expression stands in parentheses;
    other expressions do where Python's grammar asks for them.  [ind] is the
    level of the line the expression starts on. *)
Fixpoint vtext (tab : N) (ind : N) (e : vexp) {struct e} : string :=
  let at_least k e := paren (Nat.ltb (binding e) k) (vtext tab ind e) in
  match e with
  | VName x => x
  | VInt z => show_Z z
  | VVerbatim _ s => s
  | VStr s => cat [""""; s; """"]
  | VBytes bs => cat ["b'"; cat (map (fun a => String.append "\x" (hex_encode (String a ""))) (list_ascii_of_string bs)); "'"]
  | VConst (Some true) => "True"
  | VConst (Some false) => "False"
  | VConst None => "None"
  | VBin op a b => cat [at_least (left_side op) a; " "; op; " "; at_least 3 b]
  | VCmp op a b => cat [at_least 3 a; " "; op; " "; at_least 3 b]
  | VLogic both a b more =>
      sjoin (if both then " and " else " or ") (at_least 2 a :: at_least 2 b :: map (fun e => at_least 2 e) more)
  | VNot a => cat ["not "; at_least 2 a]
  | VInvert a => cat ["~"; at_least 3 a]
  | VNeg a => cat ["-"; at_least 3 a]
  | VAttr a x => cat [at_least 5 a; "."; x]
  | VSub a i more => cat [at_least 5 a; "["; sjoin ", " (map (vtext tab ind) (i :: more)); "]"]
  | VCall f args kws =>
      cat [at_least 5 f; "(";
           sjoin ", " (map (vtext tab ind) args ++ map (fun kv => cat [fst kv; "="; vtext tab ind (snd kv)]) kws); ")"]
  | VList l => cat ["["; sjoin ", " (map (vtext tab ind) l); "]"]
  | VTuple [e] => cat ["("; vtext tab ind e; ",)"]
  | VTuple l => cat ["("; sjoin ", " (map (vtext tab ind) l); ")"]
  | VDict [] => "{}"
  | VDict l =>
      cat ["{"; newline;
           sjoin (String.append "," newline)
             (map (fun kv => cat [margin tab (ind + 1); vtext tab (ind + 1) (fst kv); ": "; vtext tab (ind + 1) (snd kv)]) l);
           newline; margin tab ind; "}"]
  end.

Definition ttext (tab : N) (ind : N) (t : vtop) : string :=
  match t with One e => vtext tab ind e | Many l => sjoin ", " (map (vtext tab ind) l) end.

(** A type in a declaration: a tuple gets parentheses. *)
Definition type_text (tab : N) (ind : N) (t : vtop) : string :=
  match t with One e => vtext tab ind e | Many l => cat ["("; sjoin ", " (map (vtext tab ind) l); ")"] end.

Definition otext {A} (o : option A) (f : A -> string) : string :=
  match o with Some a => f a | None => "" end.

Fixpoint stext (tab : N) (ind : N) (s : vstmt) {struct s} : string :=
  let block l := sjoin newline (map (fun s => String.append (margin tab (ind + 1)) (stext tab (ind + 1) s)) l) in
  match s with
  | VsExpr e => vtext tab ind e
  | VsAssign t e => cat [ttext tab ind t; " = "; ttext tab ind e]
  | VsAug t op e => cat [vtext tab ind t; " "; op; "= "; vtext tab ind e]
  | VsAnn t ty e => cat [vtext tab ind t; ": "; vtext tab ind ty; otext e (fun e => String.append " = " (vtext tab ind e))]
  | VsReturn e => String.append "return" (otext e (fun e => String.append " " (ttext tab ind e)))
  | VsAssert e msg => cat ["assert "; vtext tab ind e; otext msg (fun e => String.append ", " (vtext tab ind e))]
  | VsRaise e => String.append "raise " (vtext tab ind e)
  | VsLog e => String.append "log " (vtext tab ind e)
  | VsWord w => w
  | VsIf e body orelse =>
      cat ["if "; vtext tab ind e; ":"; newline; block body;
           match orelse with [] => "" | _ => cat [newline; margin tab ind; "else:"; newline; block orelse] end]
  | VsFor t it body =>
      cat ["for "; vtext tab ind t; " in "; vtext tab ind it; ":"; newline;
           cat (map (fun s => cat [margin tab (ind + 1); stext tab (ind + 1) s; newline]) body)]
  end.

Definition block_text (tab : N) (ind : N) (l : list vstmt) : string :=
  sjoin newline (map (fun s => String.append (margin tab ind) (stext tab ind s)) l).

Definition arg_text (tab : N) (ind : N) (a : varg) : string :=
  cat [va_name a; otext (va_type a) (fun t => String.append ": " (vtext tab ind t));
       otext (va_default a) (fun d => String.append "=" (vtext tab ind d))].

Definition head_text (tab ind : N) (f : string) (args : list varg) (ret : option vtop) : string :=
  cat ["def "; f; "("; sjoin ", " (map (arg_text tab ind) args); ")";
       otext ret (fun t => String.append " -> " (type_text tab ind t)); ":"].

Definition dtext (tab : N) (d : vdef) : string :=
  match d with
  | VdFun decs f args ret body =>
      cat [cat (map (fun d => cat ["@"; vtext tab 0 d; newline]) decs); head_text tab 0 f args ret; newline; block_text tab 1 body]
  | VdVar x public constant immutable ty e =>
      let wrap (b : bool) w t := if b then cat [w; "("; t; ")"] else t in
      cat [vtext tab 0 x; ": ";
           wrap public "public" (wrap constant "constant" (wrap immutable "immutable" (type_text tab 0 ty)));
           otext e (fun e => String.append " = " (vtext tab 0 e))]
  | VdFields kw f body =>
      cat [kw; " "; f; ":"; newline; cat (map (fun s => cat [margin tab 1; stext tab 1 s; newline]) body)]
  | VdInterface f sigs =>
      cat ["interface "; f; ":"; newline;
           cat (map (fun g => cat [margin tab 1; head_text tab 1 (vg_name g) (vg_args g) (vg_ret g); " "; vtext tab 1 (vg_body g); newline]) sigs)]
  | VdBlock kw f body => cat [kw; " "; f; ":"; newline; block_text tab 1 body]
  | VdImport m alias => cat ["import "; m; otext alias (fun a => String.append " as " a)]
  | VdFrom m x alias =>
      cat ["from "; match m with Some m => m | None => "." end; " import "; x; otext alias (fun a => String.append " as " a)]
  end.

(** ** The programs the printer is up to

    No sign, no floor division and no shift, no conjunction of three, no tuple
    inside an expression, no keyword argument without a positional one, no
    parentheses but those around binary operations, no line break inside a name
    or a literal.  [h] is the number of levels of indentation that may be opened. *)

Definition sits (k : nat) (e : vexp) : Prop := binding e = 1 \/ k <= binding e.

Definition shown (op : string) : Prop := ~ In op ["//"; "<<"; ">>"].

Fixpoint easy (h : nat) (e : vexp) {struct e} : Prop :=
  let all := fix all l := match l with [] => True | e :: l => easy h e /\ all l end in
  match e with
  | VName x => one_line x
  | VVerbatim _ s | VStr s => one_line s
  | VBin op a b => shown op /\ sits (left_side op) a /\ sits 3 b /\ easy h a /\ easy h b
  | VCmp _ a b => sits 3 a /\ sits 3 b /\ easy h a /\ easy h b
  | VLogic _ a b more => more = [] /\ easy h a /\ easy h b
  | VNot a => easy h a
  | VInvert a => sits 3 a /\ easy h a
  | VNeg _ | VTuple _ => False
  | VAttr a x => 5 <= binding a /\ easy h a /\ one_line x
  | VSub a i more => 5 <= binding a /\ easy h a /\ easy h i /\ all more
  | VCall f args kws =>
      5 <= binding f /\ easy h f /\ (kws = [] \/ args <> []) /\ all args /\
      (fix go (l : list (string * vexp)) :=
         match l with [] => True | kv :: l => (one_line (fst kv) /\ easy h (snd kv)) /\ go l end) kws
  | VList l => all l
  | VDict l =>
      match h with
      | 0 => l = []
      | S h => (fix go (l : list (vexp * vexp)) :=
                  match l with [] => True | kv :: l => (easy h (fst kv) /\ easy h (snd kv)) /\ go l end) l
      end
  | VInt _ | VBytes _ | VConst _ => True
  end.

Definition easy_top (h : nat) (t : vtop) : Prop := match t with One e => easy h e | Many l => Forall (easy h) l end.
Definition oeasy {A} (P : A -> Prop) (o : option A) : Prop := match o with Some a => P a | None => True end.

(** The body of a block is one level deeper. *)
Definition inside (h : nat) (P : nat -> Prop) : Prop := match h with 0 => False | S h => P h end.

Fixpoint easy_stmt (h : nat) (s : vstmt) {struct s} : Prop :=
  let block l := inside h (fun h => (fix block l := match l with [] => True | s :: l => easy_stmt h s /\ block l end) l) in
  match s with
  | VsExpr e | VsRaise e | VsLog e => easy h e
  | VsAssign t e => easy_top h t /\ easy_top h e
  | VsAug t op e => shown op /\ easy h t /\ easy h e
  | VsAnn t ty e => easy h t /\ easy h ty /\ oeasy (easy h) e
  | VsReturn e => oeasy (easy_top h) e
  | VsAssert e msg => easy h e /\ oeasy (easy h) msg
  | VsWord _ => True
  | VsIf e body orelse => easy h e /\ block body /\ block orelse
  | VsFor t it body => easy h t /\ easy h it /\ block body
  end.

Definition easy_arg (h : nat) (a : varg) : Prop :=
  one_line (va_name a) /\ oeasy (easy h) (va_type a) /\ oeasy (easy h) (va_default a).

Definition easy_def (h : nat) (d : vdef) : Prop :=
  match d with
  | VdFun decs f args ret body =>
      one_line f /\ Forall (easy h) decs /\ Forall (easy_arg h) args /\ oeasy (easy_top h) ret /\
      inside h (fun h => Forall (easy_stmt h) body)
  | VdVar x _ _ _ ty e => easy h x /\ easy_top h ty /\ oeasy (easy h) e
  | VdFields _ f body | VdBlock _ f body => one_line f /\ inside h (fun h => Forall (easy_stmt h) body)
  | VdInterface f sigs =>
      one_line f /\
      inside h (fun h => Forall (fun g => one_line (vg_name g) /\ Forall (easy_arg h) (vg_args g) /\ oeasy (easy_top h) (vg_ret g) /\
                                          easy h (vg_body g)) sigs)
  | VdImport m alias => one_line m /\ oeasy one_line alias
  | VdFrom m x alias => oeasy one_line m /\ one_line x /\ oeasy one_line alias
  end.

(** A whole program: the definitions, with an empty line after each. *)
Definition program_text (tab : N) (l : list vdef) : string := cat (map (fun d => cat [dtext tab d; newline; newline]) l).

(** Every line is shorter than [p]. *)
Definition narrow (p : N) (s : string) : Prop := Forall (fun ln => (slen ln < p)%N) (lines s).

(** ** Nodes *)

Definition fld (n : json) (k : string) (v : json) : Prop := oget n k = Some v.
Definition is_a (n : json) (ty : string) : Prop := fld n "ast_type" (JStr ty).

(** Absent or null. *)
Definition missing (n : json) (k : string) : Prop := oget n k = None \/ oget n k = Some JNull.

(** Operator nodes and their symbols. *)
Definition binary_symbols : list (string * string) :=
  [ ("Add", "+"); ("Sub", "-"); ("Mult", "*"); ("Div", "/"); ("Mod", "%"); ("Pow", "**");
    ("BitAnd", "&"); ("BitOr", "|"); ("BitXor", "^");
    ("FloorDiv", "//"); ("LShift", "<<"); ("RShift", ">>") ].
Definition compare_symbols : list (string * string) :=
  [ ("Eq", "=="); ("NotEq", "!="); ("Gt", ">"); ("GtE", ">="); ("Lt", "<"); ("LtE", "<=");
    ("In", "in"); ("NotIn", "not in") ].

Definition has_op (n : json) (ty : string) : Prop := exists o, fld n "op" o /\ is_a o ty.

Definition elements (R : vexp -> json -> Prop) : list vexp -> list json -> Prop :=
  fix go es ns := match es, ns with
                  | [], [] => True
                  | e :: es, n :: ns => R e n /\ go es ns
                  | _, _ => False
                  end.

(** The node [n] stands for the expression. *)
Fixpoint vnode (e : vexp) (n : json) {struct e} : Prop :=
  let child k e := exists v, fld n k v /\ vnode e v in
  let children k es := exists l, fld n k (JArr l) /\ elements vnode es l in
  match e with
  | VName x => is_a n "Name" /\ fld n "id" (JStr x)
  | VInt z => is_a n "Int" /\ fld n "value" (jint z) /\ in_i64 z = true
  | VVerbatim hex s => is_a n (if hex then "Hex" else "Decimal") /\ fld n "value" (JStr s)
  | VStr s => is_a n "Str" /\ fld n "value" (JStr s)
  | VBytes bs => is_a n "Bytes" /\ fld n "value" (JStr (String.append "0x" (hex_encode bs)))
  | VConst b => is_a n "NameConstant" /\ fld n "value" match b with Some b => JBool b | None => JNull end
  | VBin op a b =>
      is_a n "BinOp" /\ (exists ty, In (ty, op) binary_symbols /\ has_op n ty) /\ child "left" a /\ child "right" b
  | VCmp op a b =>
      is_a n "Compare" /\ (exists ty, In (ty, op) compare_symbols /\ has_op n ty) /\ child "left" a /\ child "right" b
  | VLogic both a b more =>
      is_a n "BoolOp" /\ has_op n (if both then "And" else "Or") /\
      exists x y l, fld n "values" (JArr (x :: y :: l)) /\ vnode a x /\ vnode b y /\ elements vnode more l
  | VNot a => is_a n "UnaryOp" /\ has_op n "Not" /\ child "operand" a
  | VInvert a => is_a n "UnaryOp" /\ has_op n "Invert" /\ child "operand" a
  | VNeg a => is_a n "UnaryOp" /\ has_op n "USub" /\ child "operand" a
  | VAttr a x => is_a n "Attribute" /\ child "value" a /\ fld n "attr" (JStr x)
  | VSub a i more =>
      is_a n "Subscript" /\ child "value" a /\
      exists s v, fld n "slice" s /\ is_a s "Index" /\ fld s "value" v /\
        match more with
        | [] => vnode i v
        | _ => exists x l, is_a v "Tuple" /\ fld v "elements" (JArr (x :: l)) /\ vnode i x /\ elements vnode more l
        end
  | VCall f args kws =>
      is_a n "Call" /\ child "func" f /\ children "args" args /\
      exists l, fld n "keywords" (JArr l) /\
        (fix go (kws : list (string * vexp)) ns := match kws, ns with
                                 | [], [] => True
                                 | kv :: kws, n :: ns =>
                                     is_a n "keyword" /\ fld n "arg" (JStr (fst kv)) /\
                                     (exists v, fld n "value" v /\ vnode (snd kv) v) /\ go kws ns
                                 | _, _ => False
                                 end) kws l
  | VList l => is_a n "List" /\ children "elements" l
  | VTuple l => is_a n "Tuple" /\ children "elements" l
  | VDict l =>
      is_a n "Dict" /\ exists ks vs, fld n "keys" (JArr ks) /\ fld n "values" (JArr vs) /\
        (fix go (l : list (vexp * vexp)) ks vs := match l, ks, vs with
                                  | [], [], [] => True
                                  | kv :: l, k :: ks, v :: vs => vnode (fst kv) k /\ vnode (snd kv) v /\ go l ks vs
                                  | _, _, _ => False
                                  end) l ks vs
  end.

Definition tnode (t : vtop) (n : json) : Prop :=
  match t with
  | One e => vnode e n
  | Many l => is_a n "Tuple" /\ exists ns, fld n "elements" (JArr ns) /\ elements vnode l ns
  end.

Definition onode {A} (R : A -> json -> Prop) (o : option A) (n : json) (k : string) : Prop :=
  match o with Some a => exists v, fld n k v /\ R a v | None => missing n k end.

Fixpoint snode (s : vstmt) (n : json) {struct s} : Prop :=
  let child {A} k (R : A -> json -> Prop) (e : A) := exists v, fld n k v /\ R e v in
  let block k l := exists ns, fld n k (JArr ns) /\
    (fix go l ns := match l, ns with
                    | [], [] => True
                    | s :: l, n :: ns => snode s n /\ go l ns
                    | _, _ => False
                    end) l ns in
  match s with
  | VsExpr e => is_a n "Expr" /\ child "value" vnode e
  | VsAssign t e => is_a n "Assign" /\ child "target" tnode t /\ child "value" tnode e
  | VsAug t op e =>
      is_a n "AugAssign" /\ (exists ty, In (ty, op) binary_symbols /\ has_op n ty) /\
      child "target" vnode t /\ child "value" vnode e
  | VsAnn t ty e => is_a n "AnnAssign" /\ child "target" vnode t /\ child "annotation" vnode ty /\ onode vnode e n "value"
  | VsReturn e => is_a n "Return" /\ onode tnode e n "value"
  | VsAssert e msg => is_a n "Assert" /\ child "test" vnode e /\ onode vnode msg n "msg"
  | VsRaise e => is_a n "Raise" /\ child "exc" vnode e
  | VsLog e => is_a n "Log" /\ child "value" vnode e
  | VsWord w => exists ty, In (ty, w) [("Pass", "pass"); ("Break", "break"); ("Continue", "continue")] /\ is_a n ty
  | VsIf e body orelse => is_a n "If" /\ child "test" vnode e /\ block "body" body /\ block "orelse" orelse
  | VsFor t it body => is_a n "For" /\ child "target" vnode t /\ child "iter" vnode it /\ block "body" body
  end.

Definition anode (a : varg) (n : json) : Prop :=
  is_a n "arg" /\ fld n "arg" (JStr (va_name a)) /\ onode vnode (va_type a) n "annotation".

(** The arguments with a default are the last ones. *)
Definition defaults (args : list varg) : list vexp :=
  flat_map (fun a => match va_default a with Some d => [d] | None => [] end) args.
Definition defaults_last (args : list varg) : Prop :=
  exists a b, args = a ++ b /\ Forall (fun x => va_default x = None) a /\ Forall (fun x => va_default x <> None) b.

Definition flag_is (n : json) (k : string) (b : bool) : Prop :=
  fld n k (JBool b) \/ (b = false /\ oget n k = None).

(** A function up to its body. *)
Definition head_node (decs : list vexp) (f : string) (args : list varg) (ret : option vtop) (n : json) : Prop :=
  is_a n "FunctionDef" /\
  (exists ns, fld n "decorator_list" (JArr ns) /\ Forall2 vnode decs ns) /\ fld n "name" (JStr f) /\
  (exists a, fld n "args" a /\ is_a a "arguments" /\
     (exists ns, fld a "args" (JArr ns) /\ Forall2 anode args ns) /\
     (exists ds, fld a "defaults" (JArr ds) /\ Forall2 vnode (defaults args) ds) /\ defaults_last args) /\
  onode tnode ret n "returns" /\ missing n "doc_string".

Definition signode (g : vsig) (n : json) : Prop :=
  head_node [] (vg_name g) (vg_args g) (vg_ret g) n /\
  exists x v, fld n "body" (JArr [x]) /\ is_a x "Expr" /\ fld x "value" v /\ vnode (vg_body g) v.

Definition dnode (d : vdef) (n : json) : Prop :=
  let child {A} k (R : A -> json -> Prop) (e : A) := exists v, fld n k v /\ R e v in
  let list {A} k (R : A -> json -> Prop) (l : list A) := exists ns, fld n k (JArr ns) /\ Forall2 R l ns in
  match d with
  | VdFun decs f args ret body => head_node decs f args ret n /\ list "body" snode body
  | VdVar x public constant immutable ty e =>
      is_a n "VariableDecl" /\ child "target" vnode x /\ flag_is n "is_public" public /\
      flag_is n "is_constant" constant /\ flag_is n "is_immutable" immutable /\
      child "annotation" tnode ty /\ onode vnode e n "value"
  | VdFields kw f body =>
      kw = "struct" /\ is_a n "StructDef" /\ fld n "name" (JStr f) /\ list "body" snode body
  | VdInterface f sigs =>
      is_a n "InterfaceDef" /\ fld n "name" (JStr f) /\ list "body" signode sigs
  | VdBlock kw f body =>
      In (kw, true) [("event", true); ("enum", true)] /\
      is_a n (if kw =?s "event" then "EventDef" else "EnumDef") /\ fld n "name" (JStr f) /\ list "body" snode body
  | VdImport m alias => is_a n "Import" /\ fld n "name" (JStr m) /\ onode (fun a v => v = JStr a) alias n "alias"
  | VdFrom m x alias =>
      is_a n "ImportFrom" /\ fld n "module" match m with Some m => JStr m | None => JNull end /\
      fld n "name" (JStr x) /\ onode (fun a v => v = JStr a) alias n "alias"
  end.

(** A module without a doc string. *)
Definition program_node (l : list vdef) (n : json) : Prop :=
  is_a n "Module" /\ missing n "doc_string" /\ exists ns, fld n "body" (JArr ns) /\ Forall2 dnode l ns.
