(** The printed text of a Solidity program is read as that program. *)
From Coq Require Import String Ascii List NArith ZArith Bool Lia.
From Verif Require Import Base Json Printer SolPrinter SpecPrinter SpecLiteral SpecVyText SpecSolText SpecSolRead SolTextClaims SolReadLex SolReadToks3 SolReadTop.
Import ListNotations.
Open Scope string_scope.
Open Scope list_scope.

Lemma unit_reads : forall tab license l, oeasy one_line license -> forallb top_spelled l = true -> reads (unit_text tab license l) l.
Proof.
  intros tab license l Zl Sp.
  assert (L : lxs any (unit_text tab license l) (flat_map ptoks l)).
  { apply unit_lexed; [|exact Sp]. intros s ->. exact Zl. }
  destruct (lx_lex (unit_text tab license l) (flat_map ptoks l)) as (N1 & X).
  { specialize (L "" ltac:(exact Logic.I || (left; reflexivity) || reflexivity)). rewrite append_nil_s in L. exact L. }
  destruct (tops_ok l Sp) as (N2 & T). exists (N1 + N2). intros f F. unfold read_unit. rewrite X by lia. apply T. lia.
Qed.

Lemma reads_one : forall s l1 l2, reads s l1 -> reads s l2 -> l1 = l2.
Proof.
  intros s l1 l2 (N & H) (M & K). specialize (H (N + M) ltac:(lia)). specialize (K (N + M) ltac:(lia)). congruence.
Qed.

Lemma printed_reads : forall oc license l n h, unit_node license l n -> oeasy one_line license -> Forall (easy_top_level h) l -> (N.of_nat h <= 36)%N ->
  narrow 150 (unit_text 4 license l) -> forallb top_spelled l = true ->
  exists text, sol_print oc n = Ok text /\ reads text l.
Proof.
  intros oc license l n h H Zl E L Nw Sp. exists (unit_text 4 license l). split; [now apply sol_program_claim with h|]. now apply unit_reads.
Qed.

Lemma same_text : forall oc b1 l1 n1 h1 b2 l2 n2 h2,
  unit_node b1 l1 n1 -> oeasy one_line b1 -> Forall (easy_top_level h1) l1 -> (N.of_nat h1 <= 36)%N -> narrow 150 (unit_text 4 b1 l1) -> forallb top_spelled l1 = true ->
  unit_node b2 l2 n2 -> oeasy one_line b2 -> Forall (easy_top_level h2) l2 -> (N.of_nat h2 <= 36)%N -> narrow 150 (unit_text 4 b2 l2) -> forallb top_spelled l2 = true ->
  sol_print oc n1 = sol_print oc n2 -> l1 = l2.
Proof.
  intros oc b1 l1 n1 h1 b2 l2 n2 h2 A1 O1 B1 C1 D1 E1 A2 O2 B2 C2 D2 E2 Q.
  destruct (printed_reads oc b1 l1 n1 h1 A1 O1 B1 C1 D1 E1) as (t1 & P1 & R1).
  destruct (printed_reads oc b2 l2 n2 h2 A2 O2 B2 C2 D2 E2) as (t2 & P2 & R2).
  assert (t1 = t2) by congruence. subst t2. exact (reads_one _ _ _ R1 R2).
Qed.

Lemma demo_spelled : forallb top_spelled demo = true.
Proof. vm_compute. reflexivity. Qed.

(** The reader is not the printer: other layouts, redundant words and comments
    are read, and a program is refused if it is none. *)
Lemma demo_read : read_unit 3000 demo_text = Some demo.
Proof. vm_compute. reflexivity. Qed.

Definition small : list stop :=
  [PContract false "contract" "C" []
     [MVar (SVar (ty "uint256") "public" false false None false "" "x" None);
      MFun (SFun "function" "f" [var (ty "uint256") "" "n"] "external" false "payable" None [] [var (ty "bool") "" ""]
        (Some (block
          [CIf (XBin ">" (XId "n") (XLit "1" None)) (CExp (XAssign "=" (XId "x") (XBin "-" (XBin "-" (XId "n") (XLit "1" None)) (XBin "**" (XLit "2" None) (XBin "**" (XId "n") (XLit "3" None)))))) None;
           CReturn (Some (XBin "&&" (XBin "==" (XId "x") (XId "n")) (XPre "!" (XPost "++" (XId "n")))))])))]].
Definition small_other : string := String.concat newline
  ["// a contract";
   "contract C{uint256 public x;/* the only";
   "  function of it */ function f(uint256 n)payable external";
   "   returns(bool){ if(n>1)";
   "x=n-1-2**n**3; // which?";
   "return x==n&&!n++;}}"].
Lemma small_read : forallb top_spelled small = true /\ read_unit 600 (unit_text 4 None small) = Some small /\ read_unit 600 small_other = Some small /\ unit_text 4 None small <> small_other.
Proof. split; [vm_compute; reflexivity|]. split; [vm_compute; reflexivity|]. split; [vm_compute; reflexivity|]. vm_compute. discriminate. Qed.

Lemma refused :
  read_unit 600 "contract C { uint256 x = = 1; }" = None /\ read_unit 600 "contract C { function f( }" = None /\
  read_unit 600 "contract C { function f() public { x + ; } }" = None /\ read_unit 600 "contract if { }" = None.
Proof. vm_compute. auto. Qed.

(** Outside the sublanguage the text does not determine the program. *)
Definition list_unit (e : sexp) : list stop := [PContract false "contract" "C" [] [MVar (SVar (ty "uint256") "public" false false None false "" "x" (Some e))]].

Lemma same_text_outside : exists l1 n1 l2 n2,
  unit_node None l1 n1 /\ unit_node None l2 n2 /\ forallb top_spelled l1 = true /\ forallb top_spelled l2 = true /\ l1 <> l2 /\
  forall oc, exists text, sol_print oc n1 = Ok text /\ sol_print oc n2 = Ok text /\ reads text l2 /\ ~ reads text l1.
Proof.
  set (l1 := list_unit (XArray [XId "a"; XId "b"])). set (l2 := list_unit (XTuple [Some (XId "a"); Some (XId "b")])).
  exists l1, (ju None l1), l2, (ju None l2).
  split; [now apply ju_node|]. split; [now apply ju_node|]. split; [reflexivity|]. split; [reflexivity|]. split; [discriminate|].
  intros oc. exists (unit_text 4 None l2). split; [vm_compute; reflexivity|]. split; [vm_compute; reflexivity|].
  assert (R : reads (unit_text 4 None l2) l2) by now apply unit_reads. split; [exact R|]. intros Q. pose proof (reads_one _ _ _ R Q) as E. discriminate.
Qed.
