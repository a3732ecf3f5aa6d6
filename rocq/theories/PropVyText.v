(** The text of a Vyper program: C65, and the Vyper half of C49. *)
From Coq Require Import String Ascii List NArith ZArith Bool.
From Verif Require Import Base Json Printer VyPrinter SpecPrinter SpecLiteral SpecVyText VyTextClaims.
Import ListNotations.
Open Scope string_scope.
Open Scope list_scope.

(** C65. *)
Theorem C65_vyper_program_text :
  forall oc fl l n h, program_node l n -> Forall (easy_def h) l -> (N.of_nat h <= 36)%N ->
  narrow 150 (program_text 4 l) -> vy_print oc fl n = Ok (program_text 4 l).
Proof. exact vy_program_claim. Qed.
Print Assumptions C65_vyper_program_text.

Example C65_example :
  program_node demo_vy demo_vy_node /\ Forall (easy_def 2) demo_vy /\
  program_text 4 demo_vy = demo_vy_text /\ narrow 150 demo_vy_text.
Proof.
  split; [exact demo_vy_program|]. split; [exact demo_vy_easy|]. exact demo_vy_shown.
Qed.

(** C49 for Vyper: the third operand of a conjunction, a sign and a shift are
    not printed. *)
Theorem C49_vyper_printing_drops_code_refuted :
  exists e1 n1 e2 n2 e3 n3,
  vnode e1 n1 /\ vnode e2 n2 /\ vnode e3 n3 /\
  vtext 4 0 e1 = "a and b and c" /\ vtext 4 0 e2 = "-a" /\ vtext 4 0 e3 = "a << b" /\
  forall oc fl,
    vy_print oc fl n1 = Ok "a and b" /\ vy_print oc fl n2 = Ok "a" /\ vy_print oc fl n3 = Ok "ab".
Proof. exact vy_drops. Qed.
Print Assumptions C49_vyper_printing_drops_code_refuted.
