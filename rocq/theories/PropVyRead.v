(** The text of a Vyper program is read back as that program: C89. *)
From Coq Require Import String Ascii List NArith ZArith Bool.
From Verif Require Import Base Json Printer VyPrinter SpecPrinter SpecLiteral SpecVyText SpecVyRead VyTextClaims VyReadDef VyReadClaims.
Import ListNotations.
Open Scope string_scope.
Open Scope list_scope.

(** C89: the text, for every indentation. *)
Theorem C89_vyper_text_reads_back :
  forall tab l, (0 < tab)%N -> forallb spelled_def l = true -> reads (program_text tab l) l.
Proof. exact program_reads. Qed.
Print Assumptions C89_vyper_text_reads_back.

(** C89: what the program prints. *)
Theorem C89_printed_vyper_reads_back :
  forall oc fl l n h, program_node l n -> Forall (easy_def h) l -> (N.of_nat h <= 36)%N ->
  narrow 150 (program_text 4 l) -> forallb spelled_def l = true ->
  exists text, vy_print oc fl n = Ok text /\ reads text l.
Proof. exact printed_reads. Qed.
Print Assumptions C89_printed_vyper_reads_back.

(** C89: hence two trees that are printed alike are the same program. *)
Theorem C89_same_text_same_program :
  forall oc fl l1 n1 h1 l2 n2 h2,
  program_node l1 n1 -> Forall (easy_def h1) l1 -> (N.of_nat h1 <= 36)%N -> narrow 150 (program_text 4 l1) -> forallb spelled_def l1 = true ->
  program_node l2 n2 -> Forall (easy_def h2) l2 -> (N.of_nat h2 <= 36)%N -> narrow 150 (program_text 4 l2) -> forallb spelled_def l2 = true ->
  vy_print oc fl n1 = vy_print oc fl n2 -> l1 = l2.
Proof. exact same_text. Qed.
Print Assumptions C89_same_text_same_program.

(** The hypotheses, and the reader on other texts. *)
Example C89_example :
  program_node demo_vy demo_vy_node /\ Forall (easy_def 2) demo_vy /\ narrow 150 (program_text 4 demo_vy) /\
  forallb spelled_def demo_vy = true /\ read_program 600 demo_vy_text = Some demo_vy.
Proof.
  split; [exact demo_vy_program|]. split; [exact demo_vy_easy|]. split.
  - rewrite (proj1 demo_vy_shown). apply demo_vy_shown.
  - split; [exact demo_vy_spelled|exact demo_vy_read].
Qed.
Example C89_reader :
  (read_program 600 demo_vy_other = Some demo_vy /\ demo_vy_other <> demo_vy_text) /\
  read_program 600 "x: uint256 = = 1" = None /\ read_program 600 "def f(:" = None /\
  read_program 600 (String.concat newline ["def f():"; "    x = 1"; "  y = 2"]) = None.
Proof. split; [exact demo_vy_other_read|exact demo_vy_refused]. Qed.

(** Without [easy_def] it fails: the conjunction of three is printed as that of
    two, and read as such. *)
Theorem C89_every_vyper_program_refuted :
  exists l1 n1 l2 n2,
  program_node l1 n1 /\ program_node l2 n2 /\ forallb spelled_def l1 = true /\ forallb spelled_def l2 = true /\ l1 <> l2 /\
  forall oc fl, exists text, vy_print oc fl n1 = Ok text /\ vy_print oc fl n2 = Ok text /\ reads text l2 /\ ~ reads text l1.
Proof. exact same_text_outside. Qed.
Print Assumptions C89_every_vyper_program_refuted.
