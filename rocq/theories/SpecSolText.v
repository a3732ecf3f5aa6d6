(** Solidity programs as abstract syntax, the text a programmer would write for
    them, and which JSON nodes of the Solidity compiler stand for them.  Nothing
    here mentions the printer. *)
From Coq Require Import String Ascii List NArith ZArith Bool.
From Verif Require Import Base Json SpecPrinter SpecLiteral SpecVyText.
Import ListNotations.
Open Scope string_scope.
Open Scope list_scope.

(** ** Syntax *)

(** Expressions, and the types that occur in them. *)
Inductive sexp : Type :=
| XId (x : string)
| XLit (s : string) (unit : option string)          (* 12, 0x1f, true, 1 ether *)
| XStr (s : string)
| XUnicode (s : string)
| XHex (bs : string)                                (* hex"00ff" *)
| XBin (op : string) (a b : sexp)
| XPre (op : string) (a : sexp)
| XPost (op : string) (a : sexp)
| XCond (c a b : sexp)
| XAssign (op : string) (a b : sexp)
| XCall (f : sexp) (args : list sexp)
| XNamed (f : sexp) (args : list (string * sexp))   (* f({a: x, b: y}) *)
| XOpts (f : sexp) (opts : list (string * sexp))    (* f{value: x} *)
| XMember (a : sexp) (x : string)
| XIndex (a : sexp) (i : option sexp)
| XSlice (a : sexp) (i j : option sexp)             (* a[i:j] *)
| XTuple (l : list (option sexp))                   (* also plain parentheses *)
| XArray (l : list sexp)                            (* [x, y] *)
| XNew (t : sexp)
| XType (t : string)                                (* uint256 in uint256(x) *)
| TName (x : string) (payable : bool)
| TUser (x : string)
| TMap (k : sexp) (kname : string) (v : sexp) (vname : string)
| TArr (t : sexp) (len : option sexp)
| TFun (ps : list (sexp * string * string)) (external : bool) (mutability : string) (rs : list (sexp * string * string)).

(** A declaration of a variable: of the state, of a function, a parameter, a
    member of a structure.  Empty texts stand for what is not there. *)
Record svar : Type := SVar {
  sv_type : sexp; sv_visibility : string; sv_constant : bool; sv_indexed : bool; sv_override : option (list sexp);
  sv_immutable : bool; sv_location : string; sv_name : string; sv_value : option sexp }.

Inductive sstmt : Type :=
| CExp (e : sexp)
| CVar (l : list (option svar)) (e : option sexp)
| CBlock (unchecked : bool) (l : list sstmt)
| CIf (e : sexp) (yes : sstmt) (no : option sstmt)
| CWhile (e : sexp) (body : sstmt)
| CDo (body : sstmt) (e : sexp)
| CFor (init : option sstmt) (e : option sexp) (loop : option sexp) (body : sstmt)
| CReturn (e : option sexp)
| CEmit (e : sexp)
| CRevert (e : sexp)
| CWord (w : string)                                (* break, continue, _ *)
| CTry (e : sexp) (rs : list svar) (body : sstmt) (clauses : list (string * option (list svar) * sstmt)).

Record sfun : Type := SFun {
  sf_kind : string; sf_name : string; sf_params : list svar; sf_visibility : string; sf_virtual : bool;
  sf_mutability : string; sf_override : option (list sexp); sf_modifiers : list (sexp * option (list sexp));
  sf_returns : list svar; sf_body : option sstmt }.

Inductive smember : Type :=
| MVar (v : svar)
| MFun (f : sfun)
| MModifier (f : string) (ps : list svar) (virtual : bool) (override : option (list sexp)) (body : option sstmt)
| MEvent (f : string) (ps : list svar) (anonymous : bool)
| MError (f : string) (ps : list svar)
| MStruct (f : string) (l : list svar)
| MEnum (f : string) (l : list string)
| MType (f : string) (t : sexp)
| MUsing (lib : sexp) (t : option sexp) (global : bool)        (* using L for T, using L for * *)
| MUsingFuns (l : list (string * option string)) (t : option sexp) (global : bool). (* using {f, g as +} for T *)

(** The pieces of a version are those the compiler's scanner finds: 0.8.13 is
    "0.8" and ".13". *)
Inductive stop : Type :=
| PWord (w x : string)                                         (* pragma abicoder v2 *)
| PSolidity (l : list (string * list string))                  (* pragma solidity >=0.8.1 <0.9.0 *)
| PImport (file : string) (names : list (string * option string)) (alias : option string)
| PContract (abstract : bool) (kind f : string) (bases : list (sexp * option (list sexp))) (l : list smember)
| PMember (m : smember).

(** ** Text *)

(** How tightly an expression holds together, from the compiler's parser. *)
Definition precedence (op : string) : nat :=
  match assoc op [("**", 14); ("*", 13); ("/", 13); ("%", 13); ("+", 12); ("-", 12); ("<<", 11); (">>", 11); (">>>", 11);
                  ("&", 10); ("^", 9); ("|", 8); ("<", 7); (">", 7); ("<=", 7); (">=", 7); ("==", 6); ("!=", 6);
                  ("&&", 5); ("||", 4)] with
  | Some k => k
  | None => 4
  end.

Definition tightness (e : sexp) : nat :=
  match e with
  | XBin op _ _ => precedence op
  | XPre _ _ | XPost _ _ => 15
  | XCond _ _ _ | XAssign _ _ _ => 3
  | _ => 16
  end.

(** Binary operators group to the left, powers to the right. *)
Definition left_needs (op : string) : nat := if op =?s "**" then 15 else precedence op.
Definition right_needs (op : string) : nat := if op =?s "**" then 14 else S (precedence op).

(** Two signs that would be read as one symbol. *)
Definition sign (c : ascii) : bool := (Ascii.eqb c "-" || Ascii.eqb c "+")%char.
Definition sticks (op : string) (a : sexp) : bool :=
  match op, a with
  | String c _, XPre (String d _) _ => sign c && Ascii.eqb c d
  | _, _ => false
  end.

Definition spaced (s : string) : string := if s =?s "" then "" else String " " s.
Definition flagged (b : bool) (s : string) : string := if b then String " " s else "".

Definition escaped (s : string) : string :=
  cat (map (fun c => if (Ascii.eqb c """" || Ascii.eqb c "\")%char then String "\" (String c "")
                     else if ((32 <=? N_of_ascii c) && (N_of_ascii c <? 127))%N then String c ""
                     else String.append "\x" (hex_encode (String c ""))) (list_ascii_of_string s)).
Definition escaped_unicode (s : string) : string :=
  cat (map (fun c => if (Ascii.eqb c """" || Ascii.eqb c "\")%char then String "\" (String c "")
                     else if (N_of_ascii c <? 32)%N then String.append "\x" (hex_encode (String c ""))
                     else String c "") (list_ascii_of_string s)).

(** The separators of a tuple: no blank before a component that is left out. *)
Fixpoint holes (l : list (option string)) : string :=
  match l with
  | [] => ""
  | x :: l =>
      cat [match x with Some s => s | None => "" end;
           match l with [] => "" | Some _ :: _ => ", " | None :: _ => "," end; holes l]
  end.

Fixpoint xtext (tab : N) (ind : N) (e : sexp) {struct e} : string :=
  let at_least k e := paren (Nat.ltb (tightness e) k) (xtext tab ind e) in
  let param p := cat [xtext tab ind (fst (fst p)); spaced (snd (fst p)); spaced (snd p)] in
  match e with
  | XId x => x
  | XLit s unit => String.append s (otext unit (String " "))
  | XStr s => cat [""""; escaped s; """"]
  | XUnicode s => cat ["unicode"""; escaped_unicode s; """"]
  | XHex bs => cat ["hex"""; hex_encode bs; """"]
  | XBin op a b => cat [at_least (left_needs op) a; " "; op; " "; at_least (right_needs op) b]
  | XPre op a => cat [op; if (op =?s "delete") || sticks op a then " " else ""; at_least 15 a]
  | XPost op a => cat [at_least 16 a; op]
  | XCond c a b => cat [at_least 4 c; " ? "; xtext tab ind a; " : "; xtext tab ind b]
  | XAssign op a b => cat [at_least 4 a; " "; op; " "; xtext tab ind b]
  | XCall f args => cat [at_least 16 f; "("; sjoin ", " (map (xtext tab ind) args); ")"]
  | XNamed f args =>
      cat [at_least 16 f; "({";
           sjoin "," (map (fun kv => cat [newline; margin tab (ind + 1); fst kv; ": "; xtext tab (ind + 1) (snd kv)]) args);
           newline; margin tab ind; "})"]
  | XOpts f opts =>
      cat [at_least 16 f; "{"; sjoin ", " (map (fun kv => cat [fst kv; ": "; xtext tab ind (snd kv)]) opts); "}"]
  | XMember a x => cat [at_least 16 a; "."; x]
  | XIndex a i => cat [at_least 16 a; "["; otext i (xtext tab ind); "]"]
  | XSlice a i j => cat [at_least 16 a; "["; otext i (xtext tab ind); ":"; otext j (xtext tab ind); "]"]
  | XTuple l => cat ["("; holes (map (option_map (xtext tab ind)) l); ")"]
  | XArray l => cat ["["; sjoin ", " (map (xtext tab ind) l); "]"]
  | XNew t => String.append "new " (xtext tab ind t)
  | XType t => t
  | TName x payable => String.append x (flagged payable "payable")
  | TUser x => x
  | TMap k kn v vn => cat ["mapping("; xtext tab ind k; spaced kn; " => "; xtext tab ind v; spaced vn; ")"]
  | TArr t len => cat [xtext tab ind t; "["; otext len (xtext tab ind); "]"]
  | TFun ps external mutability rs =>
      cat ["function("; sjoin ", " (map param ps); ")"; flagged external "external"; spaced mutability;
           match rs with [] => "" | _ => cat [" returns ("; sjoin ", " (map param rs); ")"] end]
  end.

Definition override_text (tab ind : N) (o : option (list sexp)) : string :=
  match o with
  | None => ""
  | Some [] => " override"
  | Some l => cat [" override("; sjoin ", " (map (xtext tab ind) l); ")"]
  end.

Definition var_text (tab ind : N) (v : svar) : string :=
  cat [xtext tab ind (sv_type v); spaced (sv_visibility v); flagged (sv_constant v) "constant";
       flagged (sv_indexed v) "indexed"; override_text tab ind (sv_override v); flagged (sv_immutable v) "immutable";
       spaced (sv_location v); spaced (sv_name v); otext (sv_value v) (fun e => String.append " = " (xtext tab ind e))].

Definition params_text (tab ind : N) (l : list svar) : string :=
  cat ["("; sjoin ", " (map (var_text tab ind) l); ")"].

(** A statement that an "else" on the next line would be taken to belong to. *)
Fixpoint open_if (s : sstmt) : bool :=
  match s with
  | CIf _ _ None => true
  | CIf _ _ (Some s) => open_if s
  | CWhile _ s | CFor _ _ _ s => open_if s
  | _ => false
  end.

Definition is_cblock (s : sstmt) : bool := match s with CBlock false _ => true | _ => false end.

Fixpoint ctext (tab : N) (ind : N) (s : sstmt) {struct s} : string :=
  let deeper s := cat [newline; margin tab (ind + 1); ctext tab (ind + 1) s] in
  match s with
  | CExp e => String.append (xtext tab ind e) ";"
  | CVar l e =>
      cat [paren (Nat.ltb 1 (length l)) (holes (map (option_map (var_text tab ind)) l));
           otext e (fun e => String.append " = " (xtext tab ind e)); ";"]
  | CBlock unchecked l =>
      cat [if unchecked then "unchecked " else ""; "{";
           match l with
           | [] => ""
           | _ => cat [newline; sjoin newline (map (fun s => String.append (margin tab (ind + 1)) (ctext tab (ind + 1) s)) l);
                       newline; margin tab ind]
           end; "}"]
  | CIf e yes no =>
      cat ["if("; xtext tab ind e; ") ";
           if is_cblock yes then ctext tab ind yes
           else match no with
                | Some _ => if open_if yes then cat ["{"; deeper yes; newline; margin tab ind; "}"] else deeper yes
                | None => deeper yes
                end;
           match no with
           | None => ""
           | Some no => if is_cblock no then String.append " else " (ctext tab ind no)
                        else cat [newline; margin tab ind; "else"; deeper no]
           end]
  | CWhile e body => cat ["while ("; xtext tab ind e; ") "; ctext tab ind body]
  | CDo body e => cat ["do "; ctext tab ind body; " while ("; xtext tab ind e; ");"]
  | CFor init e loop body =>
      cat ["for("; match init with Some s => ctext tab ind s | None => ";" end;
           otext e (fun e => String " " (xtext tab ind e)); ";"; otext loop (fun e => String " " (xtext tab ind e)); ")";
           if is_cblock body then String " " (ctext tab ind body) else deeper body]
  | CReturn e => cat ["return"; otext e (fun e => String " " (xtext tab ind e)); ";"]
  | CEmit e => cat ["emit "; xtext tab ind e; ";"]
  | CRevert e => cat ["revert "; xtext tab ind e; ";"]
  | CWord w => String.append w ";"
  | CTry e rs body clauses =>
      cat ["try "; xtext tab ind e; match rs with [] => " " | _ => cat [" returns "; params_text tab ind rs; " "] end;
           ctext tab ind body; " ";
           cat (map (fun c => cat ["catch "; fst (fst c); otext (snd (fst c)) (fun ps => String.append (params_text tab ind ps) " ");
                                   ctext tab ind (snd c); " "]) clauses)]
  end.

Definition call_text (tab ind : N) (m : sexp * option (list sexp)) : string :=
  String.append (xtext tab ind (fst m)) (otext (snd m) (fun l => cat ["("; sjoin ", " (map (xtext tab ind) l); ")"])).

Definition ends (tab ind : N) (body : option sstmt) : string :=
  match body with Some s => String " " (ctext tab ind s) | None => ";" end.

Definition fun_text (tab ind : N) (f : sfun) : string :=
  cat [if sf_kind f =?s "function" then String.append "function " (sf_name f) else sf_kind f;
       params_text tab ind (sf_params f); spaced (sf_visibility f); flagged (sf_virtual f) "virtual";
       spaced (sf_mutability f); override_text tab ind (sf_override f);
       cat (map (fun m => String " " (call_text tab ind m)) (sf_modifiers f));
       match sf_returns f with [] => "" | l => String.append " returns " (params_text tab ind l) end;
       ends tab ind (sf_body f)].

Definition for_text (tab ind : N) (t : option sexp) (global : bool) : string :=
  cat [" for "; match t with Some t => xtext tab ind t | None => "*" end; flagged global "global"; ";"].

Definition mtext (tab ind : N) (m : smember) : string :=
  match m with
  | MVar v => String.append (var_text tab ind v) ";"
  | MFun f => fun_text tab ind f
  | MModifier f ps virtual override body =>
      cat ["modifier "; f; params_text tab ind ps; flagged virtual "virtual"; override_text tab ind override; ends tab ind body]
  | MEvent f ps anonymous => cat ["event "; f; params_text tab ind ps; flagged anonymous "anonymous"; ";"]
  | MError f ps => cat ["error "; f; params_text tab ind ps; ";"]
  | MStruct f l =>
      cat ["struct "; f; " {"; newline; sjoin newline (map (fun v => cat [margin tab (ind + 1); var_text tab (ind + 1) v; ";"]) l);
           newline; margin tab ind; "}"]
  | MEnum f l =>
      cat ["enum "; f; " {"; sjoin ", " (map (fun x => cat [newline; margin tab (ind + 1); x]) l); newline; margin tab ind; "}"]
  | MType f t => cat ["type "; f; " is "; xtext tab ind t; ";"]
  | MUsing lib t global => cat ["using "; xtext tab ind lib; for_text tab ind t global]
  | MUsingFuns l t global =>
      cat ["using {"; newline;
           sjoin (String.append "," newline)
             (map (fun p => cat [margin tab (ind + 1); fst p; otext (snd p) (fun op => String.append " as " op)]) l);
           newline; margin tab ind; "}"; for_text tab ind t global]
  end.

Definition ptext (tab : N) (p : stop) : string :=
  match p with
  | PWord w x => cat ["pragma "; w; " "; x; ";"]
  | PSolidity l => cat ["pragma solidity"; cat (map (fun v => String " " (cat (fst v :: snd v))) l); ";"]
  | PImport file names alias =>
      cat ["import ";
           match names with
           | [] => ""
           | _ => cat ["{"; sjoin ", " (map (fun p => String.append (fst p) (otext (snd p) (fun a => String.append " as " a))) names);
                       "} from "]
           end; """"; file; """"; otext alias (fun a => String.append " as " a); ";"]
  | PContract abstract kind f bases l =>
      cat [if abstract then "abstract " else ""; kind; " "; f;
           match bases with [] => "" | _ => String.append " is " (sjoin ", " (map (call_text tab 0) bases)) end; " {";
           match l with
           | [] => ""
           | _ => cat [newline; sjoin (String.append newline newline) (map (fun m => String.append (margin tab 1) (mtext tab 1 m)) l);
                       newline]
           end; "}"]
  | PMember m => mtext tab 0 m
  end.

Definition unit_text (tab : N) (license : option string) (l : list stop) : string :=
  cat [otext license (fun s => cat ["// SPDX-License-Identifier: "; s; newline]);
       sjoin (String.append newline newline) (map (ptext tab) l); newline; newline].

(** ** Nodes *)

Definition is_n (n : json) (ty : string) : Prop := fld n "nodeType" (JStr ty).

(** A field that the compiler leaves out. *)
Definition gone (n : json) (k : string) : Prop := oget n k = None.

Definition xelements (R : sexp -> json -> Prop) : list sexp -> list json -> Prop :=
  fix go es ns := match es, ns with
                  | [], [] => True
                  | e :: es, n :: ns => R e n /\ go es ns
                  | _, _ => False
                  end.

Definition flag (n : json) (k : string) (b : bool) : Prop := fld n k (JBool b) \/ (b = false /\ gone n k).

Definition binary_ops : list string :=
  ["**"; "*"; "/"; "%"; "+"; "-"; "<<"; ">>"; ">>>"; "&"; "^"; "|"; "<"; ">"; "<="; ">="; "=="; "!="; "&&"; "||"].

(** The node [n] stands for the expression or type. *)
Fixpoint xnode (e : sexp) (n : json) {struct e} : Prop :=
  let child k e := exists v, fld n k v /\ xnode e v in
  let maybe k (o : option sexp) := match o with Some e => exists v, fld n k v /\ xnode e v | None => gone n k end in
  let children k es := exists l, fld n k (JArr l) /\ xelements xnode es l in
  let named := fix go (kvs : list (string * sexp)) (ks vs : list json) :=
    match kvs, ks, vs with
    | [], [], [] => True
    | kv :: kvs, k :: ks, v :: vs => k = JStr (fst kv) /\ xnode (snd kv) v /\ go kvs ks vs
    | _, _, _ => False
    end in
  let params k ps := exists v l, fld n k v /\ is_n v "ParameterList" /\ fld v "parameters" (JArr l) /\
    (fix go (ps : list (sexp * string * string)) (ns : list json) :=
       match ps, ns with
       | [], [] => True
       | p :: ps, n :: ns =>
           (is_n n "VariableDeclaration" /\ (exists t, fld n "typeName" t /\ xnode (fst (fst p)) t) /\
            fld n "storageLocation" (JStr (if snd (fst p) =?s "" then "default" else snd (fst p))) /\
            fld n "name" (JStr (snd p)) /\ flag n "constant" false /\ gone n "documentation" /\ gone n "indexed" /\
            gone n "overrides" /\ gone n "value" /\ fld n "visibility" (JStr "internal") /\ fld n "mutability" (JStr "mutable")) /\
           go ps ns
       | _, _ => False
       end) ps l in
  match e with
  | XId x => (is_n n "Identifier" \/ is_n n "IdentifierPath") /\ fld n "name" (JStr x)
  | XLit s unit =>
      is_n n "Literal" /\ (fld n "kind" (JStr "number") \/ fld n "kind" (JStr "bool")) /\ fld n "value" (JStr s) /\
      match unit with Some u => fld n "subdenomination" (JStr u) | None => gone n "subdenomination" end
  | XStr s => is_n n "Literal" /\ fld n "kind" (JStr "string") /\ fld n "value" (JStr s) /\ gone n "subdenomination"
  | XUnicode s => is_n n "Literal" /\ fld n "kind" (JStr "unicodeString") /\ fld n "value" (JStr s) /\ gone n "subdenomination"
  | XHex bs =>
      is_n n "Literal" /\ fld n "kind" (JStr "hexString") /\ fld n "hexValue" (JStr (hex_encode bs)) /\
      (fld n "value" (JStr bs) \/ gone n "value") /\ gone n "subdenomination"
  | XBin op a b =>
      is_n n "BinaryOperation" /\ In op binary_ops /\ fld n "operator" (JStr op) /\ child "leftExpression" a /\ child "rightExpression" b
  | XPre op a => is_n n "UnaryOperation" /\ fld n "prefix" (JBool true) /\ fld n "operator" (JStr op) /\ child "subExpression" a
  | XPost op a => is_n n "UnaryOperation" /\ fld n "prefix" (JBool false) /\ fld n "operator" (JStr op) /\ child "subExpression" a
  | XCond c a b => is_n n "Conditional" /\ child "condition" c /\ child "trueExpression" a /\ child "falseExpression" b
  | XAssign op a b => is_n n "Assignment" /\ fld n "operator" (JStr op) /\ child "leftHandSide" a /\ child "rightHandSide" b
  | XCall f args =>
      is_n n "FunctionCall" /\ child "expression" f /\ children "arguments" args /\ fld n "names" (JArr []) /\ flag n "tryCall" false
  | XNamed f args =>
      is_n n "FunctionCall" /\ child "expression" f /\ args <> [] /\ flag n "tryCall" false /\
      exists ks vs, fld n "names" (JArr ks) /\ fld n "arguments" (JArr vs) /\ named args ks vs
  | XOpts f opts =>
      is_n n "FunctionCallOptions" /\ child "expression" f /\
      exists ks vs, fld n "names" (JArr ks) /\ fld n "options" (JArr vs) /\ named opts ks vs
  | XMember a x => is_n n "MemberAccess" /\ child "expression" a /\ fld n "memberName" (JStr x)
  | XIndex a i => is_n n "IndexAccess" /\ child "baseExpression" a /\ maybe "indexExpression" i
  | XSlice a i j => is_n n "IndexRangeAccess" /\ child "baseExpression" a /\ maybe "startExpression" i /\ maybe "endExpression" j
  | XTuple l =>
      is_n n "TupleExpression" /\ flag n "isInlineArray" false /\
      exists ns, fld n "components" (JArr ns) /\
        (fix go (l : list (option sexp)) ns := match l, ns with
                       | [], [] => True
                       | x :: l, n :: ns => match x with Some e => xnode e n | None => n = JNull end /\ go l ns
                       | _, _ => False
                       end) l ns
  | XArray l => is_n n "TupleExpression" /\ fld n "isInlineArray" (JBool true) /\ children "components" l
  | XNew t => is_n n "NewExpression" /\ child "typeName" t
  | XType t =>
      is_n n "ElementaryTypeNameExpression" /\ fld n "isPure" (JBool true) /\
      exists v, fld n "typeName" v /\
        if t =?s "payable" then fld v "stateMutability" (JStr t)
        else is_n v "ElementaryTypeName" /\ fld v "name" (JStr t) /\ gone v "stateMutability"
  | TName x payable =>
      is_n n "ElementaryTypeName" /\ fld n "name" (JStr x) /\
      if payable then fld n "stateMutability" (JStr "payable")
      else gone n "stateMutability" \/ fld n "stateMutability" (JStr "nonpayable")
  | TUser x =>
      is_n n "UserDefinedTypeName" /\
      ((exists p, fld n "pathNode" p /\ fld p "name" (JStr x)) \/ (gone n "pathNode" /\ fld n "name" (JStr x)))
  | TMap k kn v vn =>
      is_n n "Mapping" /\ child "keyType" k /\ child "valueType" v /\
      (fld n "keyName" (JStr kn) \/ (kn = "" /\ gone n "keyName")) /\ (fld n "valueName" (JStr vn) \/ (vn = "" /\ gone n "valueName"))
  | TArr t len => is_n n "ArrayTypeName" /\ child "baseType" t /\ maybe "length" len
  | TFun ps external mutability rs =>
      is_n n "FunctionTypeName" /\ fld n "visibility" (JStr (if external then "external" else "internal")) /\
      fld n "stateMutability" (JStr (if mutability =?s "" then "nonpayable" else mutability)) /\
      params "parameterTypes" ps /\ params "returnParameterTypes" rs /\ gone n "returnParameters"
  end.

Definition xmaybe {A} (R : A -> json -> Prop) (o : option A) (n : json) (k : string) : Prop :=
  match o with Some a => exists v, fld n k v /\ R a v | None => gone n k end.

Definition override_node (o : option (list sexp)) (n : json) : Prop :=
  match o with
  | None => gone n "overrides"
  | Some l => exists v ns, fld n "overrides" v /\ is_n v "OverrideSpecifier" /\ fld v "overrides" (JArr ns) /\ Forall2 xnode l ns
  end.

(** A text that the compiler gives under another name when it is not there. *)
Definition default_text (n : json) (k s : string) (d : string) : Prop := fld n k (JStr (if s =?s "" then d else s)).

Definition var_node (v : svar) (n : json) : Prop :=
  is_n n "VariableDeclaration" /\ gone n "documentation" /\ (exists t, fld n "typeName" t /\ xnode (sv_type v) t) /\
  default_text n "visibility" (sv_visibility v) "internal" /\ flag n "constant" (sv_constant v) /\ flag n "indexed" (sv_indexed v) /\
  override_node (sv_override v) n /\ fld n "mutability" (JStr (if sv_immutable v then "immutable" else if sv_constant v then "constant" else "mutable")) /\
  default_text n "storageLocation" (sv_location v) "default" /\ fld n "name" (JStr (sv_name v)) /\
  xmaybe xnode (sv_value v) n "value".

Definition params_node (l : list svar) (n : json) : Prop :=
  is_n n "ParameterList" /\ exists ns, fld n "parameters" (JArr ns) /\ Forall2 var_node l ns.

Definition hole_node {A} (R : A -> json -> Prop) (o : option A) (n : json) : Prop :=
  match o with Some a => R a n | None => n = JNull end.

(** The call of a "try" is marked. *)
Definition try_call (e : sexp) (n : json) : Prop :=
  match e with
  | XCall f args =>
      is_n n "FunctionCall" /\ (exists v, fld n "expression" v /\ xnode f v) /\
      (exists l, fld n "arguments" (JArr l) /\ xelements xnode args l) /\ fld n "names" (JArr []) /\ fld n "tryCall" (JBool true)
  | _ => False
  end.

Fixpoint cnode (s : sstmt) (n : json) {struct s} : Prop :=
  let child {A} k (R : A -> json -> Prop) (e : A) := exists v, fld n k v /\ R e v in
  let stmt k s := exists v, fld n k v /\ cnode s v in
  match s with
  | CExp e => is_n n "ExpressionStatement" /\ child "expression" xnode e
  | CVar l e =>
      is_n n "VariableDeclarationStatement" /\ (exists ns, fld n "declarations" (JArr ns) /\ Forall2 (hole_node var_node) l ns) /\
      xmaybe xnode e n "initialValue"
  | CBlock unchecked l =>
      is_n n (if unchecked then "UncheckedBlock" else "Block") /\
      exists ns, fld n "statements" (JArr ns) /\
        (fix go l ns := match l, ns with
                        | [], [] => True
                        | s :: l, n :: ns => cnode s n /\ go l ns
                        | _, _ => False
                        end) l ns
  | CIf e yes no =>
      is_n n "IfStatement" /\ child "condition" xnode e /\ stmt "trueBody" yes /\
      match no with Some s => stmt "falseBody" s | None => gone n "falseBody" end
  | CWhile e body => is_n n "WhileStatement" /\ child "condition" xnode e /\ stmt "body" body
  | CDo body e => is_n n "DoWhileStatement" /\ child "condition" xnode e /\ stmt "body" body
  | CFor init e loop body =>
      is_n n "ForStatement" /\
      match init with Some s => stmt "initializationExpression" s | None => gone n "initializationExpression" end /\
      xmaybe xnode e n "condition" /\
      match loop with
      | Some e => exists v x, fld n "loopExpression" v /\ is_n v "ExpressionStatement" /\ fld v "expression" x /\ xnode e x
      | None => gone n "loopExpression"
      end /\ stmt "body" body
  | CReturn e => is_n n "Return" /\ xmaybe xnode e n "expression"
  | CEmit e => is_n n "EmitStatement" /\ child "eventCall" xnode e
  | CRevert e => is_n n "RevertStatement" /\ child "errorCall" xnode e
  | CWord w => exists ty, In (ty, w) [("Break", "break"); ("Continue", "continue"); ("PlaceholderStatement", "_")] /\ is_n n ty
  | CTry e rs body clauses =>
      is_n n "TryStatement" /\ child "externalCall" try_call e /\
      exists b ns, fld n "clauses" (JArr (b :: ns)) /\
        (is_n b "TryCatchClause" /\ fld b "errorName" (JStr "") /\
         match rs with [] => gone b "parameters" | _ => exists v, fld b "parameters" v /\ params_node rs v end /\
         exists v, fld b "block" v /\ cnode body v) /\
        (fix go (cs : list (string * option (list svar) * sstmt)) ns := match cs, ns with
                        | [], [] => True
                        | c :: cs, n :: ns =>
                            (is_n n "TryCatchClause" /\ fld n "errorName" (JStr (fst (fst c))) /\
                             xmaybe params_node (snd (fst c)) n "parameters" /\ exists v, fld n "block" v /\ cnode (snd c) v) /\ go cs ns
                        | _, _ => False
                        end) clauses ns
  end.

Definition arguments_node (ty name : string) (m : sexp * option (list sexp)) (n : json) : Prop :=
  is_n n ty /\ (exists v, fld n name v /\ xnode (fst m) v) /\
  match snd m with Some l => exists ns, fld n "arguments" (JArr ns) /\ Forall2 xnode l ns | None => gone n "arguments" end.

Definition fun_node (f : sfun) (n : json) : Prop :=
  is_n n "FunctionDefinition" /\ gone n "documentation" /\ fld n "kind" (JStr (sf_kind f)) /\ fld n "name" (JStr (sf_name f)) /\
  (exists v, fld n "parameters" v /\ params_node (sf_params f) v) /\
  (if sf_visibility f =?s "" then gone n "visibility" \/ (sf_kind f = "freeFunction" /\ fld n "visibility" (JStr "internal"))
   else fld n "visibility" (JStr (sf_visibility f))) /\
  flag n "virtual" (sf_virtual f) /\ default_text n "stateMutability" (sf_mutability f) "nonpayable" /\
  override_node (sf_override f) n /\
  (exists ns, fld n "modifiers" (JArr ns) /\ Forall2 (arguments_node "ModifierInvocation" "modifierName") (sf_modifiers f) ns) /\
  (exists v, fld n "returnParameters" v /\ params_node (sf_returns f) v) /\
  fld n "implemented" (JBool match sf_body f with Some _ => true | None => false end) /\ xmaybe cnode (sf_body f) n "body".

Definition using_node (n : json) (t : option sexp) (global : bool) : Prop :=
  is_n n "UsingForDirective" /\ xmaybe xnode t n "typeName" /\ flag n "global" global.

(** A function of a "using": with an operator under another key than without. *)
Definition using_item (p : string * option string) (n : json) : Prop :=
  match snd p with
  | None => gone n "definition" /\ gone n "operator" /\ exists v, fld n "function" v /\ fld v "name" (JStr (fst p))
  | Some op => fld n "operator" (JStr op) /\ exists v, fld n "definition" v /\ fld v "name" (JStr (fst p))
  end.

Definition mnode (m : smember) (n : json) : Prop :=
  let params ps := exists v, fld n "parameters" v /\ params_node ps v in
  match m with
  | MVar v => var_node v n
  | MFun f => fun_node f n
  | MModifier f ps virtual override body =>
      is_n n "ModifierDefinition" /\ gone n "documentation" /\ fld n "name" (JStr f) /\ params ps /\ flag n "virtual" virtual /\
      override_node override n /\ xmaybe cnode body n "body"
  | MEvent f ps anonymous => is_n n "EventDefinition" /\ fld n "name" (JStr f) /\ params ps /\ flag n "anonymous" anonymous
  | MError f ps => is_n n "ErrorDefinition" /\ fld n "name" (JStr f) /\ params ps
  | MStruct f l => is_n n "StructDefinition" /\ fld n "name" (JStr f) /\ exists ns, fld n "members" (JArr ns) /\ Forall2 var_node l ns
  | MEnum f l =>
      is_n n "EnumDefinition" /\ fld n "name" (JStr f) /\
      exists ns, fld n "members" (JArr ns) /\ Forall2 (fun x v => is_n v "EnumValue" /\ fld v "name" (JStr x)) l ns
  | MType f t =>
      is_n n "UserDefinedValueTypeDefinition" /\ fld n "name" (JStr f) /\ exists v, fld n "underlyingType" v /\ xnode t v
  | MUsing lib t global => using_node n t global /\ gone n "functionList" /\ exists v, fld n "libraryName" v /\ xnode lib v
  | MUsingFuns l t global =>
      using_node n t global /\ gone n "libraryName" /\ exists ns, fld n "functionList" (JArr ns) /\ Forall2 using_item l ns
  end.

Definition pnode (p : stop) (n : json) : Prop :=
  match p with
  | PWord w x => is_n n "PragmaDirective" /\ fld n "literals" (JArr [JStr w; JStr x])
  | PSolidity l =>
      is_n n "PragmaDirective" /\
      fld n "literals" (JArr (JStr "solidity" ::
        flat_map (fun v => (if fst v =?s "" then [] else [JStr (fst v)]) ++ map JStr (snd v)) l))
  | PImport file names alias =>
      is_n n "ImportDirective" /\ fld n "file" (JStr file) /\ fld n "unitAlias" (JStr match alias with Some a => a | None => "" end) /\
      exists ns, fld n "symbolAliases" (JArr ns) /\
        Forall2 (fun p v => (exists x, fld v "foreign" x /\ xnode (XId (fst p)) x) /\
                            match snd p with Some a => fld v "local" (JStr a) | None => gone v "local" end) names ns
  | PContract abstract kind f bases l =>
      is_n n "ContractDefinition" /\ gone n "documentation" /\ flag n "abstract" abstract /\ fld n "contractKind" (JStr kind) /\
      fld n "name" (JStr f) /\
      (exists ns, fld n "baseContracts" (JArr ns) /\ Forall2 (arguments_node "InheritanceSpecifier" "baseName") bases ns) /\
      exists ns, fld n "nodes" (JArr ns) /\ Forall2 mnode l ns
  | PMember m => mnode m n
  end.

Definition unit_node (license : option string) (l : list stop) (n : json) : Prop :=
  is_n n "SourceUnit" /\ xmaybe (fun s v => v = JStr s) license n "license" /\
  exists ns, fld n "nodes" (JArr ns) /\ Forall2 pnode l ns.

(** ** The programs the printer is up to

    Parentheses only where the tree has them, as in every tree of the compiler.
    No literal in hexadecimal, no inline array, no slice, no empty tuple, no
    state mutability or result of a function type, no names in a mapping, no
    line break inside a name or a literal.  [h] is the number of levels of
    indentation that may be opened. *)

Definition simple_char (c : ascii) : Prop :=
  ((32 <= N_of_ascii c)%N /\ (N_of_ascii c < 127)%N) /\ c <> """"%char /\ c <> "\"%char.
Definition simple_unicode (c : ascii) : Prop := (32 <= N_of_ascii c)%N /\ c <> """"%char /\ c <> "\"%char.

Definition locations : list string := [""; "memory"; "storage"; "calldata"].

Fixpoint xeasy (h : nat) (e : sexp) {struct e} : Prop :=
  let all := fix all l := match l with [] => True | e :: l => xeasy h e /\ all l end in
  let named h := fix go (l : list (string * sexp)) :=
    match l with [] => True | kv :: l => (one_line (fst kv) /\ xeasy h (snd kv)) /\ go l end in
  let maybe o := match o with Some e => xeasy h e | None => True end in
  match e with
  | XId x | TUser x | TName x _ | XType x => one_line x
  | XLit s unit => one_line s /\ oeasy one_line unit
  | XStr s => Forall simple_char (list_ascii_of_string s)
  | XUnicode s => Forall simple_unicode (list_ascii_of_string s)
  | XHex _ | XSlice _ _ _ | XArray _ => False
  | XBin op a b => left_needs op <= tightness a /\ right_needs op <= tightness b /\ xeasy h a /\ xeasy h b
  | XPre op a => one_line op /\ 15 <= tightness a /\ sticks op a = false /\ xeasy h a
  | XPost op a => one_line op /\ 16 <= tightness a /\ xeasy h a
  | XCond c a b => 4 <= tightness c /\ xeasy h c /\ xeasy h a /\ xeasy h b
  | XAssign op a b => one_line op /\ 4 <= tightness a /\ xeasy h a /\ xeasy h b
  | XCall f args => 16 <= tightness f /\ xeasy h f /\ all args
  | XNamed f args => 16 <= tightness f /\ xeasy h f /\ inside h (fun h => named h args)
  | XOpts f opts => 16 <= tightness f /\ xeasy h f /\ opts <> [] /\ named h opts
  | XMember a x => 16 <= tightness a /\ xeasy h a /\ one_line x
  | XIndex a i => 16 <= tightness a /\ xeasy h a /\ maybe i
  | XTuple l => l <> [] /\ (fix go (l : list (option sexp)) := match l with [] => True | x :: l => maybe x /\ go l end) l
  | XNew t => xeasy h t
  | TMap k kn v vn => kn = "" /\ vn = "" /\ xeasy h k /\ xeasy h v
  | TArr t len => xeasy h t /\ maybe len
  | TFun ps _ mutability rs =>
      mutability = "" /\ rs = [] /\
      (fix go (l : list (sexp * string * string)) :=
         match l with
         | [] => True
         | p :: l => (xeasy h (fst (fst p)) /\ In (snd (fst p)) locations /\ one_line (snd p)) /\ go l
         end) ps
  end.

(** No "override" of a variable. *)
Definition easy_var (h : nat) (v : svar) : Prop :=
  xeasy h (sv_type v) /\ one_line (sv_visibility v) /\ sv_visibility v <> "internal" /\ sv_override v = None /\
  In (sv_location v) locations /\ one_line (sv_name v) /\ oeasy (xeasy h) (sv_value v).

(** Every loop has its first two parts, every "try" has results, and no "else"
    is ambiguous. *)
Fixpoint ceasy (h : nat) (s : sstmt) {struct s} : Prop :=
  let body s := if is_cblock s then ceasy h s else inside h (fun h => ceasy h s) in
  match s with
  | CExp e | CEmit e | CRevert e => xeasy h e
  | CVar l e => Forall (oeasy (easy_var h)) l /\ oeasy (xeasy h) e
  | CBlock _ l =>
      l = [] \/ inside h (fun h => (fix go l := match l with [] => True | s :: l => ceasy h s /\ go l end) l)
  | CIf e yes no =>
      xeasy h e /\ body yes /\ (is_cblock yes = true \/ open_if yes = false \/ no = None) /\
      match no with Some s => body s | None => True end
  | CWhile e s => xeasy h e /\ ceasy h s
  | CDo s e => xeasy h e /\ ceasy h s
  | CFor init e loop s =>
      match init with Some s => ceasy h s | None => False end /\ match e with Some e => xeasy h e | None => False end /\
      oeasy (xeasy h) loop /\ body s
  | CReturn e => oeasy (xeasy h) e
  | CWord _ => True
  | CTry e rs s clauses =>
      xeasy h e /\ rs <> [] /\ Forall (easy_var h) rs /\ ceasy h s /\
      (fix go (cs : list (string * option (list svar) * sstmt)) :=
         match cs with
         | [] => True
         | c :: cs => (one_line (fst (fst c)) /\ oeasy (Forall (easy_var h)) (snd (fst c)) /\ ceasy h (snd c)) /\ go cs
         end) clauses
  end.

(** At most one modifier, no function outside of contracts. *)
Definition easy_call (h : nat) (m : sexp * option (list sexp)) : Prop := xeasy h (fst m) /\ oeasy (Forall (xeasy h)) (snd m).

Definition easy_fun (h : nat) (f : sfun) : Prop :=
  In (sf_kind f) ["function"; "constructor"; "receive"; "fallback"] /\ one_line (sf_name f) /\ Forall (easy_var h) (sf_params f) /\
  one_line (sf_visibility f) /\ one_line (sf_mutability f) /\ sf_mutability f <> "nonpayable" /\
  oeasy (Forall (xeasy h)) (sf_override f) /\ length (sf_modifiers f) <= 1 /\ Forall (easy_call h) (sf_modifiers f) /\
  Forall (easy_var h) (sf_returns f) /\ oeasy (ceasy h) (sf_body f).

(** No "override" of a modifier, which has a body; no "using" for all types, and
    every function of a "using" stands for an operator. *)
Definition easy_member (h : nat) (m : smember) : Prop :=
  match m with
  | MVar v => easy_var h v
  | MFun f => easy_fun h f
  | MModifier f ps _ override body =>
      one_line f /\ Forall (easy_var h) ps /\ override = None /\ match body with Some s => ceasy h s | None => False end
  | MEvent f ps _ | MError f ps => one_line f /\ Forall (easy_var h) ps
  | MStruct f l => one_line f /\ inside h (fun h => Forall (easy_var h) l)
  | MEnum f l => one_line f /\ l <> [] /\ Forall one_line l /\ inside h (fun _ => True)
  | MType f t => one_line f /\ xeasy h t
  | MUsing lib t _ => xeasy h lib /\ match t with Some t => xeasy h t | None => False end
  | MUsingFuns l t _ =>
      l <> [] /\ Forall (fun p => one_line (fst p) /\ match snd p with Some op => one_line op | None => False end) l /\
      match t with Some t => xeasy h t | None => False end /\ inside h (fun _ => True)
  end.

Definition version_piece (s : string) : Prop :=
  s <> "" /\ Forall (fun c => c = "."%char \/ (48 <= N_of_ascii c <= 57)%N) (list_ascii_of_string s).

(** The last piece follows another one or a sign; no version follows another. *)
Definition easy_pragma (l : list (string * list string)) : Prop :=
  Forall (fun v => In (fst v) [""; "<"; "<="; ">="; ">"; "^"] /\ snd v <> [] /\ Forall version_piece (snd v)) l /\
  Forall (fun v => fst v <> "") (tl l) /\
  exists front op pieces, l = front ++ [(op, pieces)] /\ (op <> "" \/ 2 <= length pieces).

(** No variable outside of contracts, no pragma but the compiler's version. *)
Definition easy_top_level (h : nat) (p : stop) : Prop :=
  match p with
  | PWord _ _ => False
  | PSolidity l => easy_pragma l
  | PImport file names alias =>
      one_line file /\ Forall (fun p => one_line (fst p) /\ oeasy one_line (snd p)) names /\ oeasy one_line alias /\ alias <> Some ""
  | PContract _ kind f bases l =>
      one_line kind /\ one_line f /\ Forall (easy_call h) bases /\ (l = [] \/ inside h (fun h => Forall (easy_member h) l))
  | PMember (MVar _) => False
  | PMember m => easy_member h m
  end.
