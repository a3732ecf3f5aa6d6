(** The Solidity program text: the claims. *)
From Coq Require Import String Ascii List NArith ZArith Bool Lia.
From Verif Require Import Base Json Printer SolPrinter Samples SpecPrinter SpecLiteral SpecVyText SpecSolText
  TextFacts LayoutFacts EmitFacts SolEmit PrintFacts IdealFacts VyText VyTextStmt VyTextClaims SolText SolTextStmt SolTextTop.
Import ListNotations.
Open Scope string_scope.
Open Scope list_scope.

Lemma sol_program_claim : forall oc license l n h,
  unit_node license l n -> oeasy one_line license -> Forall (easy_top_level h) l -> (N.of_nat h <= 36)%N ->
  narrow 150 (unit_text 4 license l) -> sol_print oc n = Ok (unit_text 4 license l).
Proof.
  intros oc license l n h N Zl Z L Nw. unfold sol_print.
  exact (says_print h _ _ oc (unit_says h license l n N Zl Z) L Nw).
Qed.

(** ** A program *)

(** Nodes as the compiler writes them, as far as the printer looks at them. *)
Definition nd (ty : string) (l : list (string * json)) : json := JObj (("nodeType", JStr ty) :: l).
Definition ofield {A} (k : string) (o : option A) (f : A -> json) : list (string * json) :=
  match o with Some a => [(k, f a)] | None => [] end.

Definition jvar (ty : json) (vis loc name mut : string) (const idx : bool) (ov val : list (string * json)) : json :=
  nd "VariableDeclaration" ([("typeName", ty); ("visibility", JStr (if vis =?s "" then "internal" else vis));
    ("storageLocation", JStr (if loc =?s "" then "default" else loc)); ("name", JStr name); ("mutability", JStr mut);
    ("constant", JBool const)] ++ (if idx then [("indexed", JBool true)] else []) ++ ov ++ val).

Fixpoint jx (e : sexp) : json :=
  let params ps := nd "ParameterList" [("parameters", JArr (map (fun p : sexp * string * string =>
    jvar (jx (fst (fst p))) "" (snd (fst p)) (snd p) "mutable" false false [] []) ps))] in
  let lit kind s := nd "Literal" [("kind", JStr kind); ("value", JStr s)] in
  match e with
  | XId x => nd "Identifier" [("name", JStr x)]
  | XLit s unit => nd "Literal" ([("kind", JStr (if (s =?s "true") || (s =?s "false") then "bool" else "number")); ("value", JStr s)]
                                 ++ ofield "subdenomination" unit JStr)
  | XStr s => lit "string" s
  | XUnicode s => lit "unicodeString" s
  | XHex bs => nd "Literal" [("kind", JStr "hexString"); ("value", JStr bs); ("hexValue", JStr (hex_encode bs))]
  | XBin op a b => nd "BinaryOperation" [("operator", JStr op); ("leftExpression", jx a); ("rightExpression", jx b)]
  | XPre op a => nd "UnaryOperation" [("prefix", JBool true); ("operator", JStr op); ("subExpression", jx a)]
  | XPost op a => nd "UnaryOperation" [("prefix", JBool false); ("operator", JStr op); ("subExpression", jx a)]
  | XCond c a b => nd "Conditional" [("condition", jx c); ("trueExpression", jx a); ("falseExpression", jx b)]
  | XAssign op a b => nd "Assignment" [("operator", JStr op); ("leftHandSide", jx a); ("rightHandSide", jx b)]
  | XCall f args => nd "FunctionCall" [("expression", jx f); ("arguments", JArr (map jx args)); ("names", JArr []); ("tryCall", JBool false)]
  | XNamed f args => nd "FunctionCall" [("expression", jx f); ("arguments", JArr (map (fun kv => jx (snd kv)) args));
      ("names", JArr (map (fun kv => JStr (fst kv)) args)); ("tryCall", JBool false)]
  | XOpts f args => nd "FunctionCallOptions" [("expression", jx f); ("options", JArr (map (fun kv => jx (snd kv)) args));
      ("names", JArr (map (fun kv => JStr (fst kv)) args))]
  | XMember a x => nd "MemberAccess" [("expression", jx a); ("memberName", JStr x)]
  | XIndex a i => nd "IndexAccess" (("baseExpression", jx a) :: match i with Some i => [("indexExpression", jx i)] | None => [] end)
  | XSlice a i j => nd "IndexRangeAccess" (("baseExpression", jx a) ::
      match i with Some i => [("startExpression", jx i)] | None => [] end ++ match j with Some i => [("endExpression", jx i)] | None => [] end)
  | XTuple l => nd "TupleExpression" [("isInlineArray", JBool false);
      ("components", JArr (map (fun o => match o with Some e => jx e | None => JNull end) l))]
  | XArray l => nd "TupleExpression" [("isInlineArray", JBool true); ("components", JArr (map jx l))]
  | XNew t => nd "NewExpression" [("typeName", jx t)]
  | XType t => nd "ElementaryTypeNameExpression" [("isPure", JBool true); ("typeName",
      if t =?s "payable" then nd "ElementaryTypeName" [("name", JStr "address"); ("stateMutability", JStr t)]
      else nd "ElementaryTypeName" [("name", JStr t)])]
  | TName x payable => nd "ElementaryTypeName" (("name", JStr x) :: if payable then [("stateMutability", JStr "payable")] else [])
  | TUser x => nd "UserDefinedTypeName" [("pathNode", nd "IdentifierPath" [("name", JStr x)])]
  | TMap k kn v vn => nd "Mapping" [("keyType", jx k); ("keyName", JStr kn); ("valueType", jx v); ("valueName", JStr vn)]
  | TArr t len => nd "ArrayTypeName" (("baseType", jx t) :: match len with Some i => [("length", jx i)] | None => [] end)
  | TFun ps external mutability rs =>
      nd "FunctionTypeName" [("visibility", JStr (if external then "external" else "internal"));
        ("stateMutability", JStr (if mutability =?s "" then "nonpayable" else mutability));
        ("parameterTypes", params ps); ("returnParameterTypes", params rs)]
  end.

Definition joverride (o : option (list sexp)) : list (string * json) :=
  ofield "overrides" o (fun l => nd "OverrideSpecifier" [("overrides", JArr (map jx l))]).
Definition jv (v : svar) : json :=
  jvar (jx (sv_type v)) (sv_visibility v) (sv_location v) (sv_name v)
    (if sv_immutable v then "immutable" else if sv_constant v then "constant" else "mutable") (sv_constant v) (sv_indexed v)
    (joverride (sv_override v)) (ofield "value" (sv_value v) jx).
Definition jps (l : list svar) : json := nd "ParameterList" [("parameters", JArr (map jv l))].

Definition jtry (e : sexp) : json :=
  match e with
  | XCall f args => nd "FunctionCall" [("expression", jx f); ("arguments", JArr (map jx args)); ("names", JArr []); ("tryCall", JBool true)]
  | _ => JNull
  end.

Fixpoint jc (s : sstmt) : json :=
  match s with
  | CExp e => nd "ExpressionStatement" [("expression", jx e)]
  | CVar l e => nd "VariableDeclarationStatement"
      (("declarations", JArr (map (fun o => match o with Some v => jv v | None => JNull end) l)) :: ofield "initialValue" e jx)
  | CBlock u l => nd (if u then "UncheckedBlock" else "Block") [("statements", JArr (map jc l))]
  | CIf e a b => nd "IfStatement" (("condition", jx e) :: ("trueBody", jc a) :: match b with Some b => [("falseBody", jc b)] | None => [] end)
  | CWhile e s => nd "WhileStatement" [("condition", jx e); ("body", jc s)]
  | CDo s e => nd "DoWhileStatement" [("condition", jx e); ("body", jc s)]
  | CFor i e l s => nd "ForStatement" (match i with Some s => [("initializationExpression", jc s)] | None => [] end ++
      ofield "condition" e jx ++ ofield "loopExpression" l (fun e => nd "ExpressionStatement" [("expression", jx e)]) ++ [("body", jc s)])
  | CReturn e => nd "Return" (ofield "expression" e jx)
  | CEmit e => nd "EmitStatement" [("eventCall", jx e)]
  | CRevert e => nd "RevertStatement" [("errorCall", jx e)]
  | CWord w => nd (if w =?s "break" then "Break" else if w =?s "continue" then "Continue" else "PlaceholderStatement") []
  | CTry e rs s cs => nd "TryStatement" [("externalCall", jtry e); ("clauses", JArr (
      nd "TryCatchClause" (("errorName", JStr "") :: (match rs with [] => [] | _ => [("parameters", jps rs)] end) ++ [("block", jc s)]) ::
      map (fun c : string * option (list svar) * sstmt =>
        nd "TryCatchClause" (("errorName", JStr (fst (fst c))) :: ofield "parameters" (snd (fst c)) jps ++ [("block", jc (snd c))])) cs))]
  end.

Definition jcall (ty k : string) (m : sexp * option (list sexp)) : json :=
  nd ty ((k, jx (fst m)) :: ofield "arguments" (snd m) (fun l => JArr (map jx l))).

Definition jm (m : smember) : json :=
  let opt_type (t : option sexp) (g : bool) := ofield "typeName" t jx ++ [("global", JBool g)] in
  match m with
  | MVar v => jv v
  | MFun f => nd "FunctionDefinition" ([("kind", JStr (sf_kind f)); ("name", JStr (sf_name f)); ("parameters", jps (sf_params f));
      ("virtual", JBool (sf_virtual f)); ("stateMutability", JStr (if sf_mutability f =?s "" then "nonpayable" else sf_mutability f));
      ("modifiers", JArr (map (jcall "ModifierInvocation" "modifierName") (sf_modifiers f))); ("returnParameters", jps (sf_returns f));
      ("implemented", JBool match sf_body f with Some _ => true | None => false end)] ++
      (if sf_visibility f =?s "" then [] else [("visibility", JStr (sf_visibility f))]) ++ joverride (sf_override f) ++ ofield "body" (sf_body f) jc)
  | MModifier f ps v o b => nd "ModifierDefinition" ([("name", JStr f); ("parameters", jps ps); ("virtual", JBool v)] ++ joverride o ++ ofield "body" b jc)
  | MEvent f ps a => nd "EventDefinition" [("name", JStr f); ("parameters", jps ps); ("anonymous", JBool a)]
  | MError f ps => nd "ErrorDefinition" [("name", JStr f); ("parameters", jps ps)]
  | MStruct f l => nd "StructDefinition" [("name", JStr f); ("members", JArr (map jv l))]
  | MEnum f l => nd "EnumDefinition" [("name", JStr f); ("members", JArr (map (fun x => nd "EnumValue" [("name", JStr x)]) l))]
  | MType f t => nd "UserDefinedValueTypeDefinition" [("name", JStr f); ("underlyingType", jx t)]
  | MUsing lib t g => nd "UsingForDirective" (("libraryName", jx lib) :: opt_type t g)
  | MUsingFuns l t g => nd "UsingForDirective" (("functionList", JArr (map (fun p =>
      match snd p with
      | Some op => JObj [("operator", JStr op); ("definition", nd "IdentifierPath" [("name", JStr (fst p))])]
      | None => JObj [("function", nd "IdentifierPath" [("name", JStr (fst p))])]
      end) l)) :: opt_type t g)
  end.

Definition jp (p : stop) : json :=
  match p with
  | PWord w x => nd "PragmaDirective" [("literals", JArr [JStr w; JStr x])]
  | PSolidity l => nd "PragmaDirective" [("literals", JArr (JStr "solidity" ::
        flat_map (fun v => (if fst v =?s "" then [] else [JStr (fst v)]) ++ map JStr (snd v)) l))]
  | PImport file names alias => nd "ImportDirective" [("file", JStr file); ("unitAlias", JStr match alias with Some a => a | None => "" end);
      ("symbolAliases", JArr (map (fun p => JObj (("foreign", jx (XId (fst p))) :: ofield "local" (snd p) JStr)) names))]
  | PContract ab kind f bases l => nd "ContractDefinition" [("abstract", JBool ab); ("contractKind", JStr kind); ("name", JStr f);
      ("baseContracts", JArr (map (jcall "InheritanceSpecifier" "baseName") bases)); ("nodes", JArr (map jm l))]
  | PMember m => jm m
  end.

Definition ju (license : option string) (l : list stop) : json :=
  nd "SourceUnit" (ofield "license" license JStr ++ [("nodes", JArr (map jp l))]).

Definition ty (x : string) : sexp := TName x false.
Definition var (t : sexp) (loc name : string) : svar := SVar t "" false false None false loc name None.
Definition block := CBlock false.
Definition paren_ (e : sexp) : sexp := XTuple [Some e].

(** A program that uses most of the syntax; its text follows. *)
Definition demo : list stop :=
  [PSolidity [(">=", ["0.8"; ".13"]); ("<", ["0.9"; ".0"])];
   PImport "./Base.sol" [("Base", None); ("Thing", Some "T")] None;
   PMember (MError "Bad" [var (ty "uint256") "" "code"]);
   PContract true "contract" "Demo" [(XId "Base", Some [XLit "1" None]); (XId "Other", None)]
     [MUsing (XId "Lib") (Some (ty "uint256")) false;
      MEnum "State" ["Off"; "On"];
      MStruct "Pair" [var (ty "uint256") "" "a"; var (TArr (ty "uint8") (Some (XLit "4" None))) "" "b"];
      MEvent "Done" [SVar (ty "address") "" false true None false "" "who" None; var (ty "uint256") "" "amount"] false;
      MVar (SVar (TMap (ty "address") "" (TArr (TUser "Pair") None) "") "public" false false None false "" "pairs" None);
      MVar (SVar (ty "uint256") "private" true false None false "" "LIMIT" (Some (XBin "*" (XLit "2" None) (XLit "1" (Some "ether")))));
      MVar (SVar (TName "address" true) "public" false false None true "" "owner" None);
      MModifier "only" [var (ty "address") "" "who"] false None
        (Some (block [CExp (XCall (XId "require") [XBin "==" (XMember (XId "msg") "sender") (XId "who"); XStr "not the owner"]); CWord "_"]));
      MFun (SFun "constructor" "" [] "" false "payable" None [] []
        (Some (block [CExp (XAssign "=" (XId "owner") (XCall (XType "payable") [XMember (XId "msg") "sender"]))])));
      MFun (SFun "function" "price" [var (ty "uint256") "" "n"] "external" true "view" None [] [var (ty "uint256") "" ""] None);
      MFun (SFun "function" "run" [var (ty "uint256") "" "n"; var (ty "bytes") "calldata" "data"] "public" true "" (Some [XId "Base"; XId "Other"])
        [(XId "only", Some [XId "owner"])] [var (ty "uint256") "" "r"; var (ty "bool") "" ""]
        (Some (block
          [CVar [Some (var (ty "uint256") "" "i")] None;
           CVar [Some (var (ty "bool") "" "ok"); None; Some (var (ty "bytes") "memory" "out")]
             (Some (XCall (XMember (XId "this") "split") [XId "data"]));
           CFor (Some (CExp (XAssign "=" (XId "i") (XLit "0" None)))) (Some (XBin "<" (XId "i") (XId "n"))) (Some (XPost "++" (XId "i")))
             (block [CIf (XBin "==" (XBin "%" (XId "i") (XLit "2" None)) (XLit "0" None)) (CWord "continue") None;
                     CBlock true [CExp (XAssign "+=" (XId "r") (XBin "*" (paren_ (XBin "+" (XId "i") (XLit "1" None))) (XPre "-" (XId "k"))))]]);
           CIf (XBin "&&" (XPre "!" (XId "ok")) (XBin ">" (XId "r") (XId "LIMIT")))
             (block [CRevert (XCall (XId "Bad") [XId "r"])])
             (Some (CIf (XId "ok") (block []) (Some (CExp (XPre "delete" (XIndex (XIndex (XId "pairs") (Some (XId "owner"))) (Some (XId "i"))))))));
           CWhile (XLit "true" None) (block [CWord "break"]);
           CDo (block [CExp (XPre "--" (XId "i"))]) (XBin ">" (XId "i") (XLit "0" None));
           CTry (XCall (XOpts (XMember (XId "feed") "get") [("value", XLit "1" None); ("gas", XLit "5000" None)]) [XId "n"])
             [var (ty "uint256") "" "v"] (block [CExp (XAssign "=" (XId "r") (XCond (XId "ok") (XId "v") (XLit "0" None)))])
             [("Error", Some [var (ty "string") "memory" ""], block [CReturn None]); ("", None, block [])];
           CExp (XAssign "=" (XTuple [Some (XId "r"); None]) (XCall (XMember (XCall (XNew (TUser "Child")) [XId "n"]) "get") []));
           CEmit (XNamed (XId "Done") [("who", XId "owner"); ("amount", XId "r")]);
           CReturn (Some (XTuple [Some (XId "r"); Some (XId "ok")]))])))]].

Definition demo_text : string := String.concat newline
  [ "// SPDX-License-Identifier: MIT";
    "pragma solidity >=0.8.13 <0.9.0;";
    "";
    "import {Base, Thing as T} from ""./Base.sol"";";
    "";
    "error Bad(uint256 code);";
    "";
    "abstract contract Demo is Base(1), Other {";
    "    using Lib for uint256;";
    "";
    "    enum State {";
    "        Off, ";
    "        On";
    "    }";
    "";
    "    struct Pair {";
    "        uint256 a;";
    "        uint8[4] b;";
    "    }";
    "";
    "    event Done(address indexed who, uint256 amount);";
    "";
    "    mapping(address => Pair[]) public pairs;";
    "";
    "    uint256 private constant LIMIT = 2 * 1 ether;";
    "";
    "    address payable public immutable owner;";
    "";
    "    modifier only(address who) {";
    "        require(msg.sender == who, ""not the owner"");";
    "        _;";
    "    }";
    "";
    "    constructor() payable {";
    "        owner = payable(msg.sender);";
    "    }";
    "";
    "    function price(uint256 n) external virtual view returns (uint256);";
    "";
    "    function run(uint256 n, bytes calldata data) public virtual override(Base, Other) only(owner) returns (uint256 r, bool) {";
    "        uint256 i;";
    "        (bool ok,, bytes memory out) = this.split(data);";
    "        for(i = 0; i < n; i++) {";
    "            if(i % 2 == 0) ";
    "                continue;";
    "            unchecked {";
    "                r += (i + 1) * -k;";
    "            }";
    "        }";
    "        if(!ok && r > LIMIT) {";
    "            revert Bad(r);";
    "        }";
    "        else";
    "            if(ok) {}";
    "            else";
    "                delete pairs[owner][i];";
    "        while (true) {";
    "            break;";
    "        }";
    "        do {";
    "            --i;";
    "        } while (i > 0);";
    "        try feed.get{value: 1, gas: 5000}(n) returns (uint256 v) {";
    "            r = ok ? v : 0;";
    "        } catch Error(string memory) {";
    "            return;";
    "        } catch {} ";
    "        (r,) = new Child(n).get();";
    "        emit Done({";
    "            who: owner,";
    "            amount: r";
    "        });";
    "        return (r, ok);";
    "    }";
    "}";
    "";
    "" ].

Lemma demo_shown : unit_text 4 (Some "MIT") demo = demo_text.
Proof. vm_compute. reflexivity. Qed.

(** Every program of the syntax has its nodes. *)
Fixpoint xok (e : sexp) : bool :=
  let params ps := forallb (fun p : sexp * string * string => xok (fst (fst p)) && negb (snd (fst p) =?s "default")) ps in
  let maybe o := match o with Some e => xok e | None => true end in
  match e with
  | XId _ | XLit _ _ | XStr _ | XUnicode _ | XHex _ | XType _ | TName _ _ | TUser _ => true
  | XBin op a b => existsb (String.eqb op) binary_ops && (xok a && xok b)
  | XPre _ a | XPost _ a | XMember a _ | XNew a => xok a
  | XCond c a b => xok c && (xok a && xok b)
  | XAssign _ a b => xok a && xok b
  | XCall f args => xok f && forallb xok args
  | XNamed f args => xok f && (not_empty args && forallb (fun kv => xok (snd kv)) args)
  | XOpts f args => xok f && forallb (fun kv => xok (snd kv)) args
  | XIndex a i => xok a && maybe i
  | XSlice a i j => xok a && (maybe i && maybe j)
  | XTuple l => forallb (fun o => match o with Some e => xok e | None => true end) l
  | XArray l => forallb xok l
  | TMap k _ v _ => xok k && xok v
  | TArr t len => xok t && maybe len
  | TFun ps _ _ rs => params ps && params rs
  end.

Lemma sexp_ind2 : forall P : sexp -> Prop,
  (forall x, P (XId x)) -> (forall s u, P (XLit s u)) -> (forall s, P (XStr s)) -> (forall s, P (XUnicode s)) -> (forall s, P (XHex s)) ->
  (forall op a b, P a -> P b -> P (XBin op a b)) -> (forall op a, P a -> P (XPre op a)) -> (forall op a, P a -> P (XPost op a)) ->
  (forall c a b, P c -> P a -> P b -> P (XCond c a b)) -> (forall op a b, P a -> P b -> P (XAssign op a b)) ->
  (forall f args, P f -> Forall P args -> P (XCall f args)) ->
  (forall f args, P f -> Forall (fun kv => P (snd kv)) args -> P (XNamed f args)) ->
  (forall f args, P f -> Forall (fun kv => P (snd kv)) args -> P (XOpts f args)) ->
  (forall a x, P a -> P (XMember a x)) -> (forall a i, P a -> OForall P i -> P (XIndex a i)) ->
  (forall a i j, P a -> OForall P i -> OForall P j -> P (XSlice a i j)) ->
  (forall l, Forall (OForall P) l -> P (XTuple l)) -> (forall l, Forall P l -> P (XArray l)) ->
  (forall t, P t -> P (XNew t)) -> (forall t, P (XType t)) -> (forall x p, P (TName x p)) -> (forall x, P (TUser x)) ->
  (forall k kn v vn, P k -> P v -> P (TMap k kn v vn)) -> (forall t len, P t -> OForall P len -> P (TArr t len)) ->
  (forall ps e m rs, Forall (fun p => P (fst (fst p))) ps -> Forall (fun p => P (fst (fst p))) rs -> P (TFun ps e m rs)) ->
  forall e, P e.
Proof.
  intros P H1 H2 H3 H4 H5 H6 H7 H8 H9 H10 H11 H12 H13 H14 H15 H16 H17 H18 H19 H20 H21 H22 H23 H24 H25.
  fix IH 1. intros e. destruct e.
  - apply H1. - apply H2. - apply H3. - apply H4. - apply H5.
  - apply H6; apply IH. - apply H7; apply IH. - apply H8; apply IH. - apply H9; apply IH. - apply H10; apply IH.
  - apply H11; [apply IH|]. revert args. fix G 1. intros [|x l]; constructor; [apply IH|apply G].
  - apply H12; [apply IH|]. revert args. fix G 1. intros [|x l]; constructor; [apply IH|apply G].
  - apply H13; [apply IH|]. revert opts. fix G 1. intros [|x l]; constructor; [apply IH|apply G].
  - apply H14; apply IH.
  - apply H15; [apply IH|]. destruct i; [apply IH|exact I].
  - apply H16; [apply IH| |]; [destruct i; [apply IH|exact I]|destruct j; [apply IH|exact I]].
  - apply H17. revert l. fix G 1. intros [|x l]; constructor; [destruct x; [apply IH|exact I]|apply G].
  - apply H18. revert l. fix G 1. intros [|x l]; constructor; [apply IH|apply G].
  - apply H19; apply IH. - apply H20. - apply H21. - apply H22. - apply H23; apply IH.
  - apply H24; [apply IH|]. destruct len; [apply IH|exact I].
  - apply H25.
    + revert ps. fix G 1. intros [|x l]; constructor; [apply IH|apply G].
    + revert rs. fix G 1. intros [|x l]; constructor; [apply IH|apply G].
Qed.

Ltac ands := repeat match goal with H : _ && _ = true |- _ => apply andb_true_iff in H; destruct H end.
Ltac easy_fld := first [reflexivity | left; reflexivity | exact I].
Ltac kid := eexists; split; [reflexivity|auto].

Lemma xall : forall l, Forall (fun e => xok e = true -> xnode e (jx e)) l -> forallb xok l = true -> xelements xnode l (map jx l).
Proof. intros l F. induction F; intros O; [exact I|]. cbn [forallb] in O. ands. split; auto. Qed.

Lemma jx_node : forall e, xok e = true -> xnode e (jx e).
Proof.
  assert (ST : forall (kvs : list (string * sexp)),
    Forall (fun kv => xok (snd kv) = true -> xnode (snd kv) (jx (snd kv))) kvs -> forallb (fun kv => xok (snd kv)) kvs = true ->
    (fix go (kvs : list (string * sexp)) (ks vs : list json) :=
    match kvs, ks, vs with
    | [], [], [] => True
    | kv :: kvs, k :: ks, v :: vs => k = JStr (fst kv) /\ xnode (snd kv) v /\ go kvs ks vs
    | _, _, _ => False
    end) kvs (map (fun kv => JStr (fst kv)) kvs) (map (fun kv => jx (snd kv)) kvs)).
  { intros l F. induction F; intros O; [exact I|]. cbn [forallb] in O. ands. split; [reflexivity|split; [auto|apply IHF; assumption]]. }
  assert (PS : forall ps : list (sexp * string * string),
    Forall (fun p => xok (fst (fst p)) = true -> xnode (fst (fst p)) (jx (fst (fst p)))) ps ->
    forallb (fun p => xok (fst (fst p)) && negb (snd (fst p) =?s "default")) ps = true ->
    (fix go (ps : list (sexp * string * string)) (ns : list json) :=
       match ps, ns with
       | [], [] => True
       | p :: ps, n :: ns =>
           (is_n n "VariableDeclaration" /\ (exists t, fld n "typeName" t /\ xnode (fst (fst p)) t) /\
            fld n "storageLocation" (JStr (if snd (fst p) =?s "" then "default" else snd (fst p))) /\
            fld n "name" (JStr (snd p)) /\ flag n "constant" false /\ gone n "documentation" /\ gone n "indexed" /\
            gone n "overrides" /\ gone n "value" /\ fld n "visibility" (JStr "internal") /\ fld n "mutability" (JStr "mutable")) /\
           go ps ns
       | _, _ => False
       end) ps (map (fun p => jvar (jx (fst (fst p))) "" (snd (fst p)) (snd p) "mutable" false false [] []) ps)).
  { intros l F. induction F; intros O; [exact I|]. cbn [forallb] in O. ands. split; [|apply IHF; assumption].
    split; [reflexivity|]. split; [kid|]. repeat split; try reflexivity. left. reflexivity. }
  induction e using sexp_ind2; intros O; cbn [xok] in O; cbn [xnode]; ands.
  - split; [left; reflexivity|reflexivity].
  - split; [reflexivity|]. split; [|split; [reflexivity|destruct u; reflexivity]].
    cbn [jx]. destruct ((s =?s "true") || (s =?s "false")); [right|left]; reflexivity.
  - repeat split.
  - repeat split.
  - repeat split. left. reflexivity.
  - split; [reflexivity|]. split; [|split; [reflexivity|split; kid]].
    apply existsb_exists in H. destruct H as (x & I & E). apply String.eqb_eq in E. now subst x.
  - repeat (split; [reflexivity|]). kid.
  - repeat (split; [reflexivity|]). kid.
  - split; [reflexivity|]. split; [kid|]. split; kid.
  - repeat (split; [reflexivity|]). split; kid.
  - split; [reflexivity|]. split; [kid|]. split; [|split; [reflexivity|left; reflexivity]]. eexists. split; [reflexivity|]. now apply xall.
  - split; [reflexivity|]. split; [kid|]. split; [destruct args; [discriminate|discriminate]|]. split; [left; reflexivity|].
    eexists _, _. repeat (split; [reflexivity|]). now apply ST.
  - split; [reflexivity|]. split; [kid|]. eexists _, _. repeat (split; [reflexivity|]). now apply ST.
  - split; [reflexivity|]. split; [kid|reflexivity].
  - split; [reflexivity|]. split; [kid|]. destruct i; [kid|reflexivity].
  - split; [reflexivity|]. split; [kid|]. split; [destruct i; [kid|destruct j; reflexivity]|destruct i, j; first [kid|reflexivity]].
  - split; [reflexivity|]. split; [left; reflexivity|]. eexists. split; [reflexivity|].
    induction H as [|o l P F IH]; [exact I|]. cbn [forallb] in O. ands. split; [destruct o; [apply P; assumption|reflexivity]|apply IH; assumption].
  - repeat (split; [reflexivity|]). eexists. split; [reflexivity|]. now apply xall.
  - split; [reflexivity|kid].
  - repeat (split; [reflexivity|]). eexists. split; [reflexivity|]. destruct (t =?s "payable"); repeat split.
  - split; [reflexivity|]. split; [reflexivity|]. destruct p; [reflexivity|left; reflexivity].
  - split; [reflexivity|]. left. eexists. split; reflexivity.
  - split; [reflexivity|]. split; [kid|]. split; [kid|]. split; left; reflexivity.
  - split; [reflexivity|]. split; [kid|]. destruct len; [kid|reflexivity].
  - split; [reflexivity|]. split; [reflexivity|]. split; [reflexivity|].
    split; [|split; [|reflexivity]]; (eexists _, _; repeat (split; [reflexivity|])); now apply PS.
Qed.

Definition ook (o : option sexp) : bool := match o with Some e => xok e | None => true end.
Definition lok (o : option (list sexp)) : bool := match o with Some l => forallb xok l | None => true end.
Definition vok (v : svar) : bool :=
  xok (sv_type v) && (negb (sv_visibility v =?s "internal") && (lok (sv_override v) && (negb (sv_location v =?s "default") && ook (sv_value v)))).

Fixpoint cok (s : sstmt) : bool :=
  match s with
  | CExp e | CEmit e | CRevert e => xok e
  | CVar l e => forallb (fun o => match o with Some v => vok v | None => true end) l && ook e
  | CBlock _ l => forallb cok l
  | CIf e a b => xok e && (cok a && match b with Some b => cok b | None => true end)
  | CWhile e s | CDo s e => xok e && cok s
  | CFor i e l s => match i with Some i => cok i | None => true end && (ook e && (ook l && cok s))
  | CReturn e => ook e
  | CWord w => existsb (String.eqb w) ["break"; "continue"; "_"]
  | CTry e rs s cs =>
      match e with XCall f args => xok f && forallb xok args | _ => false end && (forallb vok rs && (cok s &&
      forallb (fun c : string * option (list svar) * sstmt => match snd (fst c) with Some l => forallb vok l | None => true end && cok (snd c)) cs))
  end.

Lemma all_jx : forall l, forallb xok l = true -> Forall2 xnode l (map jx l).
Proof. induction l as [|e l IH]; intros O; [constructor|]. cbn [forallb] in O. ands. constructor; [now apply jx_node|auto]. Qed.

Lemma jv_node : forall v, vok v = true -> var_node v (jv v).
Proof.
  intros [t vis con ind ov imm loc name val] O. unfold vok in O. cbn [sv_type sv_visibility sv_override sv_location sv_value] in O. ands.
  split; [reflexivity|]. split; [destruct ind, ov, val; reflexivity|].
  split; [eexists; split; [reflexivity|now apply jx_node]|]. split; [destruct ind, ov, val; reflexivity|].
  split; [left; destruct ind, ov, val; reflexivity|]. split; [destruct ind; [left; destruct ov, val; reflexivity|right; split; [reflexivity|destruct ov, val; reflexivity]]|].
  split; [|split; [reflexivity|split; [reflexivity|split; [reflexivity|]]]].
  - destruct ov as [l|]; [|destruct ind, val; reflexivity]. eexists _, _. split; [destruct ind; reflexivity|].
    split; [reflexivity|]. split; [reflexivity|]. now apply all_jx.
  - destruct val as [e|]; [|destruct ind, ov; reflexivity]. eexists. split; [destruct ind, ov; reflexivity|now apply jx_node].
Qed.

Lemma all_jv : forall l, forallb vok l = true -> Forall2 var_node l (map jv l).
Proof. induction l as [|e l IH]; intros O; [constructor|]. cbn [forallb] in O. ands. constructor; [now apply jv_node|auto]. Qed.

Lemma jps_node : forall l, forallb vok l = true -> params_node l (jps l).
Proof. intros l O. split; [reflexivity|]. eexists. split; [reflexivity|now apply all_jv]. Qed.

Lemma maybe_jx : forall o n k, ook o = true -> oget n k = option_map jx o -> xmaybe xnode o n k.
Proof. intros [e|] n k O E; [|exact E]. exists (jx e). split; [exact E|now apply jx_node]. Qed.

Lemma jc_node : forall s, cok s = true -> cnode s (jc s).
Proof.
  induction s using sstmt_ind'; intros O; cbn [cok] in O; cbn [cnode]; ands.
  - split; [reflexivity|]. eexists. split; [reflexivity|now apply jx_node].
  - split; [reflexivity|]. split; [|apply maybe_jx; [assumption|destruct e; reflexivity]]. eexists. split; [reflexivity|].
    clear H0. induction l as [|o l IH]; [constructor|]. cbn [forallb] in H. ands. constructor; [destruct o; [now apply jv_node|reflexivity]|auto].
  - split; [reflexivity|]. eexists. split; [reflexivity|].
    induction H as [|s l P F IH]; [exact I|]. cbn [forallb] in O. ands. split; [auto|apply IH; assumption].
  - split; [reflexivity|]. split; [eexists; split; [reflexivity|now apply jx_node]|]. split; [kid|]. destruct b; [kid|reflexivity].
  - split; [reflexivity|]. split; [eexists; split; [reflexivity|now apply jx_node]|]. kid.
  - split; [reflexivity|]. split; [eexists; split; [reflexivity|now apply jx_node]|]. kid.
  - split; [reflexivity|]. split; [destruct i; [kid|destruct e, l; reflexivity]|].
    split; [apply maybe_jx; [assumption|destruct i, e, l; reflexivity]|].
    split; [destruct l as [l|]; [|destruct i, e; reflexivity]|].
    + eexists _, _. split; [destruct i, e; reflexivity|]. repeat (split; [reflexivity|]). now apply jx_node.
    + eexists. split; [destruct i, e, l; reflexivity|auto].
  - split; [reflexivity|]. apply maybe_jx; [assumption|destruct e; reflexivity].
  - split; [reflexivity|]. eexists. split; [reflexivity|now apply jx_node].
  - split; [reflexivity|]. eexists. split; [reflexivity|now apply jx_node].
  - apply existsb_exists in O. destruct O as (x & I & E). apply String.eqb_eq in E. subst x. cbn in I.
    repeat (destruct I as [<-|I]; [eexists; split; [cbn; tauto|reflexivity]|]). destruct I.
  - split; [reflexivity|]. split.
    + eexists. split; [reflexivity|]. destruct e; try discriminate H0. ands. cbn [try_call jtry]. split; [reflexivity|].
      split; [eexists; split; [reflexivity|now apply jx_node]|]. split; [|split; reflexivity].
      eexists. split; [reflexivity|]. apply xall; [|assumption]. apply Forall_forall. intros. now apply jx_node.
    + eexists _, _. split; [reflexivity|]. split.
      * split; [reflexivity|]. split; [reflexivity|]. split; [|eexists; split; [destruct rs; reflexivity|auto]].
        destruct rs; [reflexivity|]. eexists. split; [reflexivity|now apply jps_node].
      * clear IHs H0. induction H as [|c cs P F IH]; [exact I|]. cbn [forallb] in H3. ands. destruct c as [[name ps] b]. cbn [fst snd] in *.
        split; [|apply IH; assumption]. split; [reflexivity|]. split; [reflexivity|]. split.
        -- destruct ps; [|reflexivity]. eexists. split; [reflexivity|now apply jps_node].
        -- eexists. split; [destruct ps; reflexivity|auto].
Qed.

Definition callok (m : sexp * option (list sexp)) : bool := xok (fst m) && lok (snd m).
Definition fok (f : sfun) : bool :=
  forallb vok (sf_params f) && (negb (sf_mutability f =?s "nonpayable") && (lok (sf_override f) && (forallb callok (sf_modifiers f) &&
  (forallb vok (sf_returns f) && match sf_body f with Some s => cok s | None => true end)))).
Definition mok (m : smember) : bool :=
  match m with
  | MVar v => vok v
  | MFun f => fok f
  | MModifier _ ps _ o b => forallb vok ps && (lok o && match b with Some s => cok s | None => true end)
  | MEvent _ ps _ | MError _ ps | MStruct _ ps => forallb vok ps
  | MEnum _ _ => true
  | MType _ t => xok t
  | MUsing lib t _ => xok lib && ook t
  | MUsingFuns _ t _ => ook t
  end.
Definition pok (p : stop) : bool :=
  match p with
  | PWord _ _ | PSolidity _ | PImport _ _ _ => true
  | PContract _ _ _ bases l => forallb callok bases && forallb mok l
  | PMember m => mok m
  end.

Lemma jcalls_node : forall ty k l, (k =?s "nodeType") = false -> ("arguments" =?s k) = false -> forallb callok l = true ->
  Forall2 (arguments_node ty k) l (map (jcall ty k) l).
Proof.
  intros t k l K1 K2. induction l as [|[e args] l IH]; intros O; [constructor|]. cbn [forallb] in O. ands. unfold callok in *. cbn [fst snd] in *. ands.
  constructor; [|auto]. split; [reflexivity|]. split.
  - exists (jx e). split; [|now apply jx_node]. unfold fld, jcall, nd, oget. cbn [assoc fst snd]. rewrite K1, String.eqb_refl. reflexivity.
  - cbn [fst snd]. destruct args as [args|]; cbn [lok] in *.
    + eexists. split; [unfold fld, jcall, nd, oget; cbn [assoc fst snd ofield app]; rewrite K2; reflexivity|now apply all_jx].
    + unfold gone, jcall, nd, oget; cbn [assoc fst snd ofield app]; rewrite K2; reflexivity.
Qed.

Lemma joverride_node : forall o n, lok o = true ->
  oget n "overrides" = option_map (fun l => nd "OverrideSpecifier" [("overrides", JArr (map jx l))]) o -> override_node o n.
Proof.
  intros [l|] n O E; [|exact E]. cbn [override_node]. eexists _, _. split; [exact E|]. repeat (split; [reflexivity|]). now apply all_jx.
Qed.

Lemma maybe_jc : forall o n k, match o with Some s => cok s | None => true end = true -> oget n k = option_map jc o -> xmaybe cnode o n k.
Proof. intros [e|] n k O E; [|exact E]. exists (jc e). split; [exact E|now apply jc_node]. Qed.

Lemma jm_node : forall m, mok m = true -> mnode m (jm m).
Proof.
  intros [v|f|f ps virt ov body|f ps anon|f ps|f l|f l|f t|lib t g|l t g] O; cbn [mok mnode] in *; ands.
  - now apply jv_node.
  - destruct f as [kind name ps vis virt mut ov mods rs body]. unfold fok in O.
    cbn [sf_kind sf_name sf_params sf_visibility sf_virtual sf_mutability sf_override sf_modifiers sf_returns sf_body] in *. ands.
    unfold fun_node. cbn [sf_kind sf_name sf_params sf_visibility sf_virtual sf_mutability sf_override sf_modifiers sf_returns sf_body].
    unfold jm. cbn [sf_kind sf_name sf_params sf_visibility sf_virtual sf_mutability sf_override sf_modifiers sf_returns sf_body].
    split; [reflexivity|]. split; [destruct (vis =?s ""), ov, body; reflexivity|]. do 2 (split; [reflexivity|]).
    split; [eexists; split; [reflexivity|now apply jps_node]|].
    split; [destruct (vis =?s ""); [left; destruct ov, body; reflexivity|reflexivity]|].
    split; [left; reflexivity|]. split; [reflexivity|].
    split; [apply joverride_node; [assumption|destruct (vis =?s ""), ov, body; reflexivity]|].
    split; [eexists; split; [reflexivity|now apply jcalls_node]|].
    split; [eexists; split; [reflexivity|now apply jps_node]|]. split; [reflexivity|].
    apply maybe_jc; [assumption|destruct (vis =?s ""), ov, body; reflexivity].
  - split; [reflexivity|]. split; [destruct ov, body; reflexivity|]. split; [reflexivity|].
    split; [eexists; split; [reflexivity|now apply jps_node]|]. split; [left; reflexivity|].
    split; [apply joverride_node; [assumption|destruct ov, body; reflexivity]|].
    apply maybe_jc; [assumption|destruct ov, body; reflexivity].
  - do 2 (split; [reflexivity|]). split; [eexists; split; [reflexivity|now apply jps_node]|left; reflexivity].
  - do 2 (split; [reflexivity|]). eexists; split; [reflexivity|now apply jps_node].
  - do 2 (split; [reflexivity|]). eexists; split; [reflexivity|now apply all_jv].
  - do 2 (split; [reflexivity|]). eexists; split; [reflexivity|]. clear. induction l; constructor; [split; reflexivity|assumption].
  - do 2 (split; [reflexivity|]). eexists; split; [reflexivity|now apply jx_node].
  - split; [split; [reflexivity|split; [apply maybe_jx; [assumption|destruct t; reflexivity]|left; destruct t; reflexivity]]|].
    split; [destruct t; reflexivity|]. eexists; split; [reflexivity|now apply jx_node].
  - split; [split; [reflexivity|split; [apply maybe_jx; [assumption|destruct t; reflexivity]|left; destruct t; reflexivity]]|].
    split; [destruct t; reflexivity|]. eexists; split; [reflexivity|]. clear. induction l as [|[x [op|]] l IH]; constructor; try assumption; unfold using_item; cbn [fst snd].
    + split; [reflexivity|]. eexists. split; reflexivity.
    + repeat (split; [reflexivity|]). eexists. split; reflexivity.
Qed.

Lemma jp_node : forall p, pok p = true -> pnode p (jp p).
Proof.
  intros [w x|l|file names alias|ab kind f bases l|m] O; cbn [pok pnode] in *; ands.
  - split; reflexivity.
  - split; reflexivity.
  - do 3 (split; [reflexivity|]). eexists. split; [reflexivity|]. clear. induction names as [|[x a] l IH]; constructor; [|assumption].
    split; [eexists; split; [reflexivity|split; [left; reflexivity|reflexivity]]|]. destruct a; reflexivity.
  - do 2 (split; [reflexivity|]). split; [left; reflexivity|]. do 2 (split; [reflexivity|]).
    split; [eexists; split; [reflexivity|now apply jcalls_node]|]. eexists. split; [reflexivity|].
    clear - H0. induction l as [|m l IH]; [constructor|]. cbn [forallb] in H0. ands. constructor; [now apply jm_node|auto].
  - now apply jm_node.
Qed.

Lemma ju_node : forall license l, forallb pok l = true -> unit_node license l (ju license l).
Proof.
  intros license l O. split; [reflexivity|]. split; [destruct license; [eexists; split; reflexivity|reflexivity]|].
  eexists. split; [destruct license; reflexivity|]. induction l as [|p l IH]; [constructor|]. cbn [forallb] in O. ands.
  constructor; [now apply jp_node|auto].
Qed.

Lemma demo_node : unit_node (Some "MIT") demo (ju (Some "MIT") demo).
Proof. apply ju_node. vm_compute. reflexivity. Qed.

Lemma demo_narrow : narrow 150 demo_text.
Proof. vm_compute. repeat constructor. Qed.

Lemma piece_ok : forall s, digits_dots s = true -> version_piece s.
Proof.
  intros s H. unfold digits_dots in H. apply andb_true_iff in H. destruct H as (E & H). split; [destruct s; discriminate|].
  clear E. induction s as [|c s IH]; [constructor|]. cbn [all_digits_dots] in H. apply andb_true_iff in H. destruct H as (C & H).
  constructor; [|exact (IH H)]. apply orb_true_iff in C. destruct C as [C|C]; [right|left; now apply Ascii.eqb_eq].
  unfold is_digit in C. apply andb_true_iff in C. destruct C as (A & B). apply N.leb_le in A, B. lia.
Qed.

Lemma simple_ok : forall s,
  forallb (fun c => (32 <=? N_of_ascii c)%N && ((N_of_ascii c <? 127)%N && negb (Ascii.eqb c """" || Ascii.eqb c "\")%char)) (list_ascii_of_string s) = true ->
  Forall simple_char (list_ascii_of_string s).
Proof.
  intros s H. apply Forall_forall. intros c I. rewrite forallb_forall in H. specialize (H c I). ands.
  apply N.leb_le in H. apply N.ltb_lt in H0. apply negb_true_iff, orb_false_iff in H1. destruct H1 as (A & B).
  apply Ascii.eqb_neq in A, B. split; [split; assumption|split; assumption].
Qed.

Ltac ez := repeat (cbn; match goal with
  | |- _ /\ _ => split
  | |- True => exact I
  | |- _ <= _ => lia
  | |- _ <> _ => discriminate
  | |- one_line _ => reflexivity
  | |- version_piece _ => apply piece_ok; reflexivity
  | |- Forall simple_char ?l => apply (simple_ok "not the owner"); reflexivity
  | |- Forall _ _ => constructor
  | |- easy_member _ _ => unfold easy_member
  | |- easy_var _ _ => unfold easy_var
  | |- easy_fun _ _ => unfold easy_fun
  | |- easy_call _ _ => unfold easy_call
  | |- _ = _ => reflexivity
  | |- _ = _ \/ _ = _ => first [left; reflexivity | right; reflexivity]
  | |- _ = _ \/ _ => first [left; reflexivity | right]
  end).

Lemma demo_easy : oeasy one_line (Some "MIT") /\ Forall (easy_top_level 5) demo.
Proof.
  split; [reflexivity|]. unfold demo. constructor; [|constructor; [|constructor; [|constructor; [|constructor]]]].
  - split; [|split; [|exists [(">=", ["0.8"; ".13"])], "<", ["0.9"; ".0"]; split; [reflexivity|left; discriminate]]]; ez.
  - ez.
  - ez.
  - ez.
Qed.

(** ** Programs that are printed wrongly *)

Definition misprinted {A} (node : A -> json -> Prop) (text : A -> string) (want got : string) : Prop :=
  exists a n, node a n /\ text a = want /\ forall oc, sol_print oc n = Ok got.

Lemma mis {A} (ok : A -> bool) (j : A -> json) (node : A -> json -> Prop) (text : A -> string) :
  (forall a, ok a = true -> node a (j a)) -> forall a want got, ok a = true -> text a = want ->
  sol_print true (j a) = Ok got -> sol_print false (j a) = Ok got -> misprinted node text want got.
Proof. intros N a want got O T G F. exists a, (j a). split; [exact (N a O)|]. split; [exact T|]. intros []; assumption. Qed.

Ltac wrong N a := apply (mis _ _ _ _ N a); vm_compute; reflexivity.

Definition a_ := XId "a".
Definition b_ := XId "b".

Lemma wrong_expressions :
  misprinted xnode (xtext 4 0) "[a, b]" "(a, b)" /\
  misprinted xnode (xtext 4 0) "a[b:]" "ab" /\
  misprinted xnode (xtext 4 0) "hex""61""" "a" /\
  misprinted xnode (xtext 4 0) "()" "" /\
  misprinted xnode (xtext 4 0) "- -a" "--a" /\
  misprinted xnode (xtext 4 0) "function(uint256) external view returns (bool)" "function(uint256) external" /\
  misprinted xnode (xtext 4 0) "mapping(address owner => uint256 balance)" "mapping(address => uint256)".
Proof.
  repeat split.
  - wrong jx_node (XArray [a_; b_]).
  - wrong jx_node (XSlice a_ (Some b_) None).
  - wrong jx_node (XHex "a").
  - wrong jx_node (XTuple []).
  - wrong jx_node (XPre "-" (XPre "-" a_)).
  - wrong jx_node (TFun [(ty "uint256", "", "")] true "view" [(ty "bool", "", "")]).
  - wrong jx_node (TMap (ty "address") "owner" (ty "uint256") "balance").
Qed.

Lemma wrong_statements :
  misprinted cnode (ctext 4 0) "for(; a;) {}" "for( a;) {}" /\
  misprinted cnode (ctext 4 0) "for(a;;) {}" "for(a;) {}" /\
  misprinted cnode (ctext 4 0) "try a() {} catch {} " "try a() returns {} catch {} ".
Proof.
  repeat split.
  - wrong jc_node (CFor None (Some a_) None (block [])).
  - wrong jc_node (CFor (Some (CExp a_)) None None (block [])).
  - wrong jc_node (CTry (XCall a_ []) [] (block []) [("", None, block [])]).
Qed.

Lemma wrong_members :
  misprinted mnode (mtext 4 0) "function f() public a b;" "function f() public a, b;" /\
  misprinted var_node (var_text 4 0) "uint256 public override x" "uint256 publicoverride x" /\
  misprinted mnode (mtext 4 0) "modifier m() virtual;" "modifier m() virtual" /\
  misprinted mnode (mtext 4 0) "using L for *;" "using L for ;" /\
  misprinted mnode (mtext 4 0) (String.concat newline ["using {"; "    f"; "} for uint256 global;"])
                               (String.concat newline ["using {"; "    "; "} for uint256 global;"]).
Proof.
  repeat split.
  - wrong jm_node (MFun (SFun "function" "f" [] "public" false "" None [(a_, None); (b_, None)] [] None)).
  - wrong jv_node (SVar (ty "uint256") "public" false false (Some []) false "" "x" None).
  - wrong jm_node (MModifier "m" [] true None None).
  - wrong jm_node (MUsing (XId "L") None false).
  - wrong jm_node (MUsingFuns [("f", None)] (Some (ty "uint256")) true).
Qed.

Lemma wrong_top_level :
  misprinted pnode (ptext 4) "pragma abicoder v2;" "pragma abicoderv2;" /\
  misprinted pnode (ptext 4) "pragma solidity 0.8;" "pragma solidity0.8;" /\
  misprinted (unit_node None) (unit_text 4 None) (String.concat newline ["uint256 constant X = 1;"; ""; ""])
                                                 (String.concat newline ["uint256 constant X = 1"; ""; ""]).
Proof.
  repeat split.
  - wrong jp_node (PWord "abicoder" "v2").
  - wrong jp_node (PSolidity [("", ["0.8"])]).
  - wrong (ju_node None) [PMember (MVar (SVar (ty "uint256") "" true false None false "" "X" (Some (XLit "1" None))))].
Qed.
