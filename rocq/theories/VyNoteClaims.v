(** The text of a Vyper program with comments in it: the claims. *)
From Coq Require Import String Ascii List NArith ZArith Bool Lia.
From Verif Require Import Base Json VyMutators Printer VyPrinter SpecPrinter SpecLiteral SpecVyText SpecVyRead SpecVyEdit
  TextFacts LayoutFacts EmitFacts VyEmit PrintFacts IdealFacts VyText VyTextStmt VyTextClaims VyReadDef VyReadClaims VyReadNote VyNoteExec VyNoteText Samples.
Import ListNotations.
Open Scope string_scope.
Open Scope list_scope.

Lemma printed_notes : forall oc fl l n h text, cprogram_node l n -> Forall (easy_def h) l -> (N.of_nat h <= 36)%N ->
  narrow 150 (program_text 4 l) -> forallb spelled_def l = true ->
  vy_print oc fl n = Ok text -> reads text l.
Proof.
  intros oc fl l n h text H Z L Nw Sp E. unfold vy_print, print_text in E.
  destruct (exec (std_geo oc) (vy_emit (vy_default oc fl) n) fresh) as [[o st]| | |] eqn:X; cbn [bind] in E; try discriminate E. injection E as <-.
  destruct (program_notes h (vy_default oc fl) l n (conj eq_refl eq_refl) H Z Sp) as (x & (P & B & O & C & I) & K).
  destruct (exec_commented oc true false x _ K eq_refl fresh "" o st P O) as (G & _).
  - change (max_indent (std_geo oc)) with 36%N. cbn [fresh p_ind]. specialize (C 0%N). lia.
  - reflexivity.
  - cbn [String.append fresh p_ind]. rewrite I. exact Nw.
  - exact X.
  - specialize (G (fun _ => eq_refl) eq_refl). cbn [String.append fresh p_ind] in G. rewrite I in G.
    apply (adds_reads _ _ l G). apply program_reads; [reflexivity|exact Sp].
Qed.

(** Nodes without comments. *)
Lemma same_nodes : forall A (R Q : A -> json -> Prop) l ns, Forall2 R l ns -> (forall a n, In a l -> R a n -> Q a n) -> with_comments Q l ns.
Proof.
  intros A R Q l ns F. induction F as [|a n l ns H F IH]; intros K; [constructor|].
  exists [], n, ns. split; [reflexivity|]. split; [constructor|]. split; [apply K; [left; reflexivity|exact H]|].
  apply IH. intros b m I. apply K. now right.
Qed.

Lemma snode_csnode : forall s n, snode s n -> csnode s n.
Proof.
  induction s as [e|t e|t op e|t ty e|e|e m|e|e|w|e body orelse IHb IHo|t it body IHb] using vstmt_ind'; intros n H; try exact H.
  - cbn [snode] in H. destruct H as (A & T & (bs & Fb & Nb) & (os & Fo & No)). apply block_nodes in Nb. apply block_nodes in No.
    rewrite Forall_forall in IHb, IHo. cbn [csnode]. split; [exact A|]. split; [exact T|]. split; [|split].
    + exists bs. split; [exact Fb|]. apply (same_nodes _ snode); [exact Nb|]. intros a m I. exact (IHb a I m).
    + exists os. split; [exact Fo|]. apply (same_nodes _ snode); [exact No|]. intros a m I. exact (IHo a I m).
    + intros ->. inversion No; subst. exact Fo.
  - cbn [snode] in H. destruct H as (A & T & It & (bs & Fb & Nb)). apply block_nodes in Nb. rewrite Forall_forall in IHb.
    cbn [csnode]. split; [exact A|]. split; [exact T|]. split; [exact It|]. exists bs. split; [exact Fb|].
    apply (same_nodes _ snode); [exact Nb|]. intros a m I. exact (IHb a I m).
Qed.

Lemma dnode_cdnode : forall d n, dnode d n -> cdnode d n.
Proof.
  assert (G : forall body ns, Forall2 snode body ns -> with_comments csnode body ns).
  { intros body ns N. apply (same_nodes _ snode); [exact N|]. intros a m _. apply snode_csnode. }
  intros [decs f args ret body| |kw f body| |kw f body| |] n H; try exact H.
  - destruct H as (H & ns & F & N). split; [exact H|]. exists ns. auto.
  - destruct H as (E & A & Fn & ns & F & N). repeat (split; [assumption|]). exists ns. auto.
  - destruct H as (E & A & Fn & ns & F & N). repeat (split; [assumption|]). exists ns. auto.
Qed.

Lemma program_cprogram : forall l n, program_node l n -> cprogram_node l n.
Proof.
  intros l n (A & D & ns & F & N). split; [exact A|]. split; [exact D|]. exists ns. split; [exact F|].
  apply (same_nodes _ dnode); [exact N|]. intros a m _. apply dnode_cdnode.
Qed.

(** ** A program with comments *)

(** The program of C65 with comments at every level: before a definition, before a
    statement, after the last one, one whose text has a line end, one that holds a statement. *)
Definition noted_vy_node : json :=
  let nm := v_name 1 in
  let call f args kws := v_node "Call" 1 [("func", f); ("args", JArr args); ("keywords", JArr kws)] in
  let attr a x := v_node "Attribute" 1 [("value", a); ("attr", JStr x)] in
  v_module
    [ vy_comment "the owner";
      v_node "VariableDecl" 1 [("target", nm "owner"); ("is_public", JBool true); ("is_constant", JBool false); ("is_immutable", JBool true);
                               ("annotation", nm "address"); ("value", JNull)];
      vy_comment (String.append "f() does it" (String "010" "x = 1"));
      v_node "FunctionDef" 1
        [ ("decorator_list", JArr [nm "external"]); ("name", JStr "f");
          ("args", v_node "arguments" 1
             [("args", JArr [v_node "arg" 1 [("arg", JStr "x"); ("annotation", nm "uint256")];
                             v_node "arg" 1 [("arg", JStr "y"); ("annotation", nm "bool")]]);
              ("defaults", JArr [v_node "NameConstant" 1 [("value", JBool true)]])]);
          ("returns", v_node "Tuple" 1 [("elements", JArr [nm "uint256"; nm "bool"])]); ("doc_string", JNull);
          ("body", JArr
             [ vy_comment "BinaryOp: changed";
               v_node "If" 1
                 [ ("test", v_node "Compare" 1 [("op", v_op 2 "Gt"); ("left", nm "x");
                      ("right", v_node "BinOp" 1 [("op", v_op 2 "Add"); ("left", v_int 1 1);
                         ("right", v_node "Subscript" 1 [("value", attr (nm "self") "t");
                            ("slice", v_node "Index" 1 [("value", v_node "Str" 1 [("value", JStr "k")])])])])]);
                   ("body", JArr [v_return 1 (v_node "Tuple" 1 [("elements", JArr [nm "x"; nm "y"])]);
                                  vy_comment_node (v_return 7 (nm "x"))]);
                   ("orelse", JArr [vy_comment "here"; v_node "Log" 1 [("value", call (nm "Done") [nm "x"]
                      [v_node "keyword" 1 [("arg", JStr "who"); ("value", attr (nm "msg") "sender")]])]]) ];
               v_node "For" 1
                 [ ("target", nm "i"); ("iter", call (nm "range") [v_int 1 3] []);
                   ("body", JArr [vy_comment "and"; v_node "AugAssign" 1 [("op", v_op 2 "Add"); ("target", nm "x"); ("value", v_int 1 2)];
                                  vy_comment "there"]) ];
               vy_comment "end" ]) ] ].

Definition noted_vy_text : string := String.concat newline
  [ "# the owner"; "";
    "owner: public(immutable(address))"; "";
    "# f() does it x = 1"; "";
    "@external";
    "def f(x: uint256, y: bool=True) -> (uint256, bool):";
    "    # BinaryOp: changed";
    "    if x > (1 + self.t[""k""]):";
    "        return x, y";
    "        # return x";
    "    else:";
    "        # here";
    "        log Done(x, who=msg.sender)";
    "    for i in range(3):";
    "        # and";
    "        x += 2";
    "        # there"; "";
    "    # end"; ""; "" ].

Lemma noted_vy_printed : forall fl, vy_print true fl noted_vy_node = Ok noted_vy_text.
Proof. intros fl. vm_compute. reflexivity. Qed.

Ltac no_notes := cbn [with_comments]; exists []; do 2 eexists; split; [reflexivity|]; split; [constructor|]; split.
Ltac one_note := cbn [with_comments]; match goal with |- exists cs n more, ?x :: _ = _ /\ _ => exists [x] end;
  do 2 eexists; split; [reflexivity|]; split; [repeat constructor|]; split.

Lemma noted_vy_program : cprogram_node demo_vy noted_vy_node.
Proof.
  split; [reflexivity|]. split; [left; reflexivity|]. eexists. split; [reflexivity|].
  unfold demo_vy. one_note; [cbn [cdnode]; node|]. one_note; [|constructor].
  split.
  - destruct demo_vy_program as (_ & _ & ns & F & N). injection F as <-. inversion N as [|? ? ? ? _ N2]; subst. inversion N2 as [|? ? ? ? H _]; subst.
    exact (proj1 H).
  - eexists. split; [reflexivity|]. one_note; [|no_notes; [|repeat constructor]].
    + cbn [csnode]. split; [reflexivity|]. split; [node|]. split; [|split; [|discriminate]].
      * eexists. split; [reflexivity|]. no_notes; [cbn [csnode]; node|repeat constructor].
      * eexists. split; [reflexivity|]. one_note; [cbn [csnode]; node|constructor].
    + cbn [csnode]. split; [reflexivity|]. split; [node|]. split; [node|]. eexists. split; [reflexivity|]. one_note; [cbn [csnode]; node|repeat constructor].
Qed.
