(** The printed text of a Vyper program is read as that program. *)
From Coq Require Import String Ascii List NArith ZArith Bool Lia.
From Verif Require Import Base Json Printer VyPrinter SpecPrinter SpecLiteral SpecVyText VyTextClaims SpecVyRead VyReadDef Samples.
Import ListNotations.
Open Scope string_scope.
Open Scope list_scope.

Lemma reads_one : forall s l1 l2, reads s l1 -> reads s l2 -> l1 = l2.
Proof.
  intros s l1 l2 (N & H) (M & K). specialize (H (N + M) ltac:(lia)). specialize (K (N + M) ltac:(lia)). congruence.
Qed.

Lemma printed_reads : forall oc fl l n h, program_node l n -> Forall (easy_def h) l -> (N.of_nat h <= 36)%N ->
  narrow 150 (program_text 4 l) -> forallb spelled_def l = true ->
  exists text, vy_print oc fl n = Ok text /\ reads text l.
Proof.
  intros oc fl l n h H E L Nw Sp. exists (program_text 4 l). split; [now apply vy_program_claim with h|].
  apply program_reads; [reflexivity|exact Sp].
Qed.

Lemma same_text : forall oc fl l1 n1 h1 l2 n2 h2,
  program_node l1 n1 -> Forall (easy_def h1) l1 -> (N.of_nat h1 <= 36)%N -> narrow 150 (program_text 4 l1) -> forallb spelled_def l1 = true ->
  program_node l2 n2 -> Forall (easy_def h2) l2 -> (N.of_nat h2 <= 36)%N -> narrow 150 (program_text 4 l2) -> forallb spelled_def l2 = true ->
  vy_print oc fl n1 = vy_print oc fl n2 -> l1 = l2.
Proof.
  intros oc fl l1 n1 h1 l2 n2 h2 A1 B1 C1 D1 E1 A2 B2 C2 D2 E2 Q.
  destruct (printed_reads oc fl l1 n1 h1 A1 B1 C1 D1 E1) as (t1 & P1 & R1).
  destruct (printed_reads oc fl l2 n2 h2 A2 B2 C2 D2 E2) as (t2 & P2 & R2).
  assert (t1 = t2) by congruence. subst t2. exact (reads_one _ _ _ R1 R2).
Qed.

Lemma demo_vy_spelled : forallb spelled_def demo_vy = true.
Proof. vm_compute. reflexivity. Qed.

(** The reader is not the printer: other layouts, redundant parentheses and
    comments are read, and a program is refused if it is none. *)
Lemma demo_vy_read : read_program 600 demo_vy_text = Some demo_vy.
Proof. vm_compute. reflexivity. Qed.

Definition demo_vy_other : string := String.concat newline
  [ "# who may call";
    "owner:public( immutable (address) )"; ""; "";
    "@external  # anybody";
    "def f(x:uint256,y:bool = True)->(uint256,";
    "          bool):";
    ""; "  if x>1+self.t[ ""k"" ] :";
    "     return x , y"; 
    "  else :";
    "     # no luck";
    "     log Done (x,who = msg . sender)";
    "  for i in (range(3)):";
    "      x+=2"].
Lemma demo_vy_other_read : read_program 600 demo_vy_other = Some demo_vy /\ demo_vy_other <> demo_vy_text.
Proof. split; [vm_compute; reflexivity|vm_compute; discriminate]. Qed.

Lemma demo_vy_refused :
  read_program 600 "x: uint256 = = 1" = None /\ read_program 600 "def f(:" = None /\
  read_program 600 (String.concat newline ["def f():"; "    x = 1"; "  y = 2"]) = None.
Proof. vm_compute. auto. Qed.

(** Outside the sublanguage the text does not determine the program. *)
Definition flag_def (more : list vexp) : vdef :=
  VdVar (VName "x") false true false (One (VName "bool")) (Some (VLogic true (VName "a") (VName "b") more)).
Definition flag_node (more : list json) : json :=
  v_module [v_node "VariableDecl" 1 [("target", v_name 2 "x"); ("is_public", JBool false); ("is_constant", JBool true);
    ("is_immutable", JBool false); ("annotation", v_name 3 "bool");
    ("value", v_node "BoolOp" 4 [("op", v_op 5 "And"); ("values", JArr (v_name 6 "a" :: v_name 7 "b" :: more))])]].

Lemma flag_program : forall es ns, elements vnode es ns -> program_node [flag_def es] (flag_node ns).
Proof.
  intros es ns H. split; [reflexivity|]. split; [left; reflexivity|]. eexists. split; [reflexivity|]. constructor; [|constructor].
  cbn [dnode flag_def]. split; [reflexivity|]. split; [eexists; repeat split|]. split; [left; reflexivity|]. split; [left; reflexivity|].
  split; [left; reflexivity|]. split; [eexists; repeat split|]. eexists. split; [reflexivity|]. cbn [vnode].
  split; [reflexivity|]. split; [eexists; split; reflexivity|]. eexists _, _, _. split; [reflexivity|]. repeat split. exact H.
Qed.

Lemma same_text_outside : exists l1 n1 l2 n2,
  program_node l1 n1 /\ program_node l2 n2 /\ forallb spelled_def l1 = true /\ forallb spelled_def l2 = true /\ l1 <> l2 /\
  forall oc fl, exists text, vy_print oc fl n1 = Ok text /\ vy_print oc fl n2 = Ok text /\ reads text l2 /\ ~ reads text l1.
Proof.
  exists [flag_def [VName "c"]], (flag_node [v_name 8 "c"]), [flag_def []], (flag_node []).
  split; [apply flag_program; repeat split|]. split; [apply flag_program; exact I|]. split; [reflexivity|]. split; [reflexivity|].
  split; [discriminate|]. intros oc fl. exists (program_text 4 [flag_def []]). split; [vm_compute; reflexivity|].
  split; [vm_compute; reflexivity|]. assert (R : reads (program_text 4 [flag_def []]) [flag_def []]) by now apply program_reads.
  split; [exact R|]. intros Q. pose proof (reads_one _ _ _ R Q) as E. discriminate.
Qed.
