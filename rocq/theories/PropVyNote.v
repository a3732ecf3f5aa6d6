(** A Vyper program with comments in it is read as that program: C90. *)
From Coq Require Import String Ascii List NArith ZArith Bool.
From Verif Require Import Base Json VyMutators Printer VyPrinter SpecPrinter SpecLiteral SpecVyText SpecVyRead SpecVyEdit
  VyTextClaims VyReadClaims VyNoteClaims Samples.
Import ListNotations.
Open Scope string_scope.
Open Scope list_scope.

(** C90: whatever the comments say and hold, and wherever they stand between the
    statements and definitions, the text is that of the program without them. *)
Theorem C90_commented_vyper_reads_back :
  forall oc fl l n h text, cprogram_node l n -> Forall (easy_def h) l -> (N.of_nat h <= 36)%N ->
  narrow 150 (program_text 4 l) -> forallb spelled_def l = true ->
  vy_print oc fl n = Ok text -> reads text l.
Proof. exact printed_notes. Qed.
Print Assumptions C90_commented_vyper_reads_back.

(** A program without comments is one of these. *)
Theorem C90_programs_without_comments :
  forall l n, program_node l n -> cprogram_node l n.
Proof. exact program_cprogram. Qed.
Print Assumptions C90_programs_without_comments.

(** Comments at every level, one with a line end in its text, one that holds a
    statement. *)
Example C90_example :
  cprogram_node demo_vy noted_vy_node /\ Forall (easy_def 2) demo_vy /\ narrow 150 (program_text 4 demo_vy) /\
  forallb spelled_def demo_vy = true /\ (forall fl, vy_print true fl noted_vy_node = Ok noted_vy_text) /\
  noted_vy_text <> demo_vy_text.
Proof.
  split; [exact noted_vy_program|]. split; [exact demo_vy_easy|]. split.
  - rewrite (proj1 demo_vy_shown). apply demo_vy_shown.
  - split; [exact demo_vy_spelled|]. split; [exact noted_vy_printed|vm_compute; discriminate].
Qed.

(** A body with nothing but a comment is no program. *)
Example C90_comment_alone :
  read_program 600 (String.concat newline ["def f():"; "    x = 1"; "    # y = 2"]) <> None /\
  read_program 600 (String.concat newline ["def f():"; "    # y = 2"]) = None.
Proof. split; [vm_compute; discriminate|vm_compute; reflexivity]. Qed.
