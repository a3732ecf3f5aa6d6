(** The Vyper program text: the claims. *)
From Coq Require Import String Ascii List NArith ZArith Bool Lia.
From Verif Require Import Base Json Printer VyPrinter Samples SpecPrinter SpecLiteral SpecVyText
  TextFacts LayoutFacts EmitFacts VyEmit PrintFacts IdealFacts VyText VyTextStmt.
Import ListNotations.
Open Scope string_scope.
Open Scope list_scope.

Lemma says_print : forall h l t oc, says0 h l t -> (N.of_nat h <= 36)%N -> narrow 150 (t 4%N) ->
  print_text oc l = Ok (t 4%N).
Proof.
  intros h l t oc (P & B & O & C & E) H Nw.
  destruct (exec_ideal (std_geo oc) l fresh "") as (st & X).
  - exact P.
  - exact O.
  - change (max_indent (std_geo oc)) with 36%N. cbn [fresh p_ind]. specialize (C 0%N). lia.
  - reflexivity.
  - reflexivity.
  - cbn [String.append std_geo g_page g_tab fresh p_ind]. rewrite E. exact Nw.
  - unfold print_text. rewrite X. cbn [bind std_geo g_tab fresh p_ind]. now rewrite E.
Qed.

Lemma vy_program_claim : forall oc fl l n h, program_node l n -> Forall (easy_def h) l -> (N.of_nat h <= 36)%N ->
  narrow 150 (program_text 4 l) -> vy_print oc fl n = Ok (program_text 4 l).
Proof.
  intros oc fl l n h H Z L Nw. unfold vy_print.
  exact (says_print h _ _ oc (program_says h (vy_default oc fl) l n (conj eq_refl eq_refl) H Z) L Nw).
Qed.

(** ** What is dropped *)

Definition three_names (op : string) : json :=
  v_node "BoolOp" 1 [("op", v_op 2 op); ("values", JArr [v_name 3 "a"; v_name 4 "b"; v_name 5 "c"])].
Definition negation : json := v_node "UnaryOp" 1 [("op", v_op 2 "USub"); ("operand", v_name 3 "a")].
Definition shift : json := v_node "BinOp" 1 [("op", v_op 2 "LShift"); ("left", v_name 3 "a"); ("right", v_name 4 "b")].

Lemma vy_drops :
  exists e1 n1 e2 n2 e3 n3,
  vnode e1 n1 /\ vnode e2 n2 /\ vnode e3 n3 /\
  vtext 4 0 e1 = "a and b and c" /\ vtext 4 0 e2 = "-a" /\ vtext 4 0 e3 = "a << b" /\
  forall oc fl,
    vy_print oc fl n1 = Ok "a and b" /\ vy_print oc fl n2 = Ok "a" /\ vy_print oc fl n3 = Ok "ab".
Proof.
  exists (VLogic true (VName "a") (VName "b") [VName "c"]), (three_names "And"), (VNeg (VName "a")), negation,
    (VBin "<<" (VName "a") (VName "b")), shift.
  repeat split; try (vm_compute; reflexivity).
  - exists (v_op 2 "And"). split; reflexivity.
  - exists (v_name 3 "a"), (v_name 4 "b"), [v_name 5 "c"]. repeat split.
  - exists (v_op 2 "USub"). split; reflexivity.
  - exists (v_name 3 "a"). repeat split.
  - exists "LShift". split; [cbn; tauto|]. exists (v_op 2 "LShift"). split; reflexivity.
  - exists (v_name 3 "a"). repeat split.
  - exists (v_name 4 "b"). repeat split.
Qed.

(** ** A program *)

(**  owner: public(immutable(address))
     @external
     def f(x: uint256, y: bool=True) -> (uint256, bool):
         if x > (1 + self.t["k"]):
             return x, y
         else:
             log Done(x, who=msg.sender)
         for i in range(3):
             x += 2                                                             *)
Definition demo_vy : list vdef :=
  let name := VName in
  [ VdVar (name "owner") true false true (One (name "address")) None;
    VdFun [name "external"] "f"
      [VArg "x" (Some (name "uint256")) None; VArg "y" (Some (name "bool")) (Some (VConst (Some true)))]
      (Some (Many [name "uint256"; name "bool"]))
      [ VsIf (VCmp ">" (name "x") (VBin "+" (VInt 1) (VSub (VAttr (name "self") "t") (VStr "k") [])))
          [VsReturn (Some (Many [name "x"; name "y"]))]
          [VsLog (VCall (name "Done") [name "x"] [("who", VAttr (name "msg") "sender")])];
        VsFor (name "i") (VCall (name "range") [VInt 3] []) [VsAug (name "x") "+" (VInt 2)] ] ].

Definition demo_vy_text : string := String.concat newline
  [ "owner: public(immutable(address))"; "";
    "@external";
    "def f(x: uint256, y: bool=True) -> (uint256, bool):";
    "    if x > (1 + self.t[""k""]):";
    "        return x, y";
    "    else:";
    "        log Done(x, who=msg.sender)";
    "    for i in range(3):";
    "        x += 2"; ""; ""; "" ].

Definition demo_vy_node : json :=
  let nm := v_name 1 in
  let call f args kws := v_node "Call" 1 [("func", f); ("args", JArr args); ("keywords", JArr kws)] in
  let attr a x := v_node "Attribute" 1 [("value", a); ("attr", JStr x)] in
  v_module
    [ v_node "VariableDecl" 1 [("target", nm "owner"); ("is_public", JBool true); ("is_constant", JBool false); ("is_immutable", JBool true);
                               ("annotation", nm "address"); ("value", JNull)];
      v_node "FunctionDef" 1
        [ ("decorator_list", JArr [nm "external"]); ("name", JStr "f");
          ("args", v_node "arguments" 1
             [("args", JArr [v_node "arg" 1 [("arg", JStr "x"); ("annotation", nm "uint256")];
                             v_node "arg" 1 [("arg", JStr "y"); ("annotation", nm "bool")]]);
              ("defaults", JArr [v_node "NameConstant" 1 [("value", JBool true)]])]);
          ("returns", v_node "Tuple" 1 [("elements", JArr [nm "uint256"; nm "bool"])]); ("doc_string", JNull);
          ("body", JArr
             [ v_node "If" 1
                 [ ("test", v_node "Compare" 1 [("op", v_op 2 "Gt"); ("left", nm "x");
                      ("right", v_node "BinOp" 1 [("op", v_op 2 "Add"); ("left", v_int 1 1);
                         ("right", v_node "Subscript" 1 [("value", attr (nm "self") "t");
                            ("slice", v_node "Index" 1 [("value", v_node "Str" 1 [("value", JStr "k")])])])])]);
                   ("body", JArr [v_return 1 (v_node "Tuple" 1 [("elements", JArr [nm "x"; nm "y"])])]);
                   ("orelse", JArr [v_node "Log" 1 [("value", call (nm "Done") [nm "x"]
                      [v_node "keyword" 1 [("arg", JStr "who"); ("value", attr (nm "msg") "sender")]])]]) ];
               v_node "For" 1
                 [ ("target", nm "i"); ("iter", call (nm "range") [v_int 1 3] []);
                   ("body", JArr [v_node "AugAssign" 1 [("op", v_op 2 "Add"); ("target", nm "x"); ("value", v_int 1 2)]]) ] ]) ] ].

Ltac node := cbn [vnode snode dnode tnode onode fst snd va_name va_type va_default]; repeat first
  [ reflexivity
  | match goal with
    | |- exists ty, In _ _ /\ has_op _ _ => eexists; split; [|eexists; split; reflexivity]; cbn; tauto
    | |- missing _ _ => first [left; reflexivity|right; reflexivity]
    | |- flag_is _ _ _ => left; reflexivity
    | |- exists v, fld _ _ _ /\ _ => eexists; split; [reflexivity|]
    | |- exists s v, fld _ _ s /\ _ => do 2 eexists; split; [reflexivity|]; split; [reflexivity|]; split; [reflexivity|]
    | |- _ /\ _ => split
    | |- True => exact I
  | |- easy_arg _ _ => unfold easy_arg
    | |- elements _ _ _ => cbn [elements]
    | |- vnode _ _ => cbn [vnode]
    | |- snode _ _ => cbn [snode]
    | |- tnode _ _ => cbn [tnode]
    | |- anode _ _ => unfold anode; cbn [va_name va_type onode]
    end
  | progress cbv beta iota ].

Lemma demo_vy_program : program_node demo_vy demo_vy_node.
Proof.
  split; [reflexivity|]. split; [left; reflexivity|]. eexists. split; [reflexivity|].
  constructor; [|constructor; [|constructor]].
  - node.
  - split; [split; [reflexivity|split; [|split; [reflexivity|split; [|split; [|right; reflexivity]]]]]|].
    + eexists. split; [reflexivity|]. constructor; [node|constructor].
    + eexists. split; [reflexivity|]. split; [reflexivity|]. split; [|split].
      * eexists. split; [reflexivity|]. repeat constructor; node.
      * eexists. split; [reflexivity|]. constructor; [node|constructor].
      * exists [VArg "x" (Some (VName "uint256")) None], [VArg "y" (Some (VName "bool")) (Some (VConst (Some true)))].
        repeat constructor. discriminate.
    + node.
    + eexists. split; [reflexivity|]. constructor; [node|constructor; [node|constructor]].
Qed.

Lemma demo_vy_easy : Forall (easy_def 2) demo_vy.
Proof.
  repeat match goal with
  | |- _ /\ _ => split
  | |- True => exact I
  | |- easy_arg _ _ => unfold easy_arg
  | |- Forall _ _ => constructor
  | |- one_line _ => reflexivity
  | |- sits _ _ => first [left; reflexivity|right; cbn; lia]
  | |- shown _ => unfold shown; cbn; intuition discriminate
  | |- _ <= _ => cbn; lia
  | |- _ \/ _ => first [left; reflexivity|right; discriminate]
  | |- _ => progress cbn
  end.
Qed.

Lemma demo_vy_shown : program_text 4 demo_vy = demo_vy_text /\ narrow 150 demo_vy_text.
Proof.
  split; [vm_compute; reflexivity|].
  unfold narrow. remember (lines demo_vy_text) as l eqn:E. vm_compute in E. subst l. repeat constructor.
Qed.
