(** C75-C77: what the command that shows the mutation algorithms shows. *)
From Coq Require Import String List NArith ZArith Bool Permutation.
From Verif Require Import Base Json MutationType Traverse OpCommon SolMutators VyMutators Printer SpecPrinter SpecOps
  Samples Info SpecInfo InfoFacts InfoClaims.
Import ListNotations.
Open Scope list_scope.
Open Scope string_scope.

(** C75.  Whatever the order in which the table gives up its keys and however
    wide the terminal, what --list shows, with or without --describe, is, word for
    word, the name and the summary of every algorithm in alphabetical order. *)
Theorem C75_list_shows_every_algorithm : forall oc cols keys describe o,
  Permutation keys (map fst descriptions) -> algorithms oc cols keys true describe = Ok o ->
  exists l es, alphabetical l /\ Forall2 short_entry l es /\ words o = concat es.
Proof. exact command_list. Qed.
Print Assumptions C75_list_shows_every_algorithm.

(** What --describe alone shows is, blanks left out, the name, the summary, the details, the
    operators and the examples of every algorithm in alphabetical order. *)
Theorem C75_describe_shows_every_algorithm : forall oc cols keys o,
  Permutation keys (map fst descriptions) -> algorithms oc cols keys false true = Ok o ->
  exists l es, alphabetical l /\ Forall2 long_entry l es /\ strip o = fold_right String.append "" es.
Proof. exact command_describe. Qed.
Print Assumptions C75_describe_shows_every_algorithm.

Example C75_example : Permutation (rev (map fst descriptions)) (map fst descriptions) /\
  (exists o, algorithms true 80 (rev (map fst descriptions)) true false = Ok o) /\
  (exists o, algorithms true 80 (rev (map fst descriptions)) false true = Ok o).
Proof.
  assert (P : Permutation (rev (map fst descriptions)) (map fst descriptions)) by (apply Permutation_sym, Permutation_rev).
  split; [exact P|]. split; [apply (list_wide true 80 _ P); discriminate|apply (describe_wide true 80 _ P); discriminate].
Qed.

(** C76.  The commands do not come to an end on every terminal: on one of 39
    columns the short list recurses for ever. *)
Theorem C76_algorithms_ends_refuted : forall keys, Permutation keys (map fst descriptions) ->
  exists cols, forall oc describe, ~ comes_to_an_end (algorithms oc cols keys true describe).
Proof. exact command_fails. Qed.
Print Assumptions C76_algorithms_ends_refuted.

(** They do on terminals of at least 40 and 43 columns, whether overflows are
    checked or not; and, when overflows are checked, on no others but, for the
    long list, one of 41.  (Missing: narrower terminals, where they do not.) *)
Theorem C76_list_ends_partial : forall oc cols keys describe,
  Permutation keys (map fst descriptions) -> (40 <= cols)%N -> comes_to_an_end (algorithms oc cols keys true describe).
Proof. exact command_list_wide. Qed.
Print Assumptions C76_list_ends_partial.

Theorem C76_describe_ends_partial : forall oc cols keys,
  Permutation keys (map fst descriptions) -> (43 <= cols)%N -> comes_to_an_end (algorithms oc cols keys false true).
Proof. exact command_describe_wide. Qed.
Print Assumptions C76_describe_ends_partial.

Theorem C76_list_ends_exactly_partial : forall cols keys describe, Permutation keys (map fst descriptions) ->
  (comes_to_an_end (algorithms true cols keys true describe) <-> (40 <= cols)%N).
Proof. exact command_list_iff. Qed.
Print Assumptions C76_list_ends_exactly_partial.

Theorem C76_describe_ends_exactly_partial : forall cols keys, Permutation keys (map fst descriptions) ->
  (comes_to_an_end (algorithms true cols keys false true) <-> (43 <= cols)%N \/ cols = 41%N).
Proof. exact command_describe_iff. Qed.
Print Assumptions C76_describe_ends_exactly_partial.

Example C76_example : comes_to_an_end (algorithms true 80 (map fst descriptions) true false) /\
  ~ comes_to_an_end (algorithms true 30 (map fst descriptions) true false).
Proof. exact algorithms_example. Qed.

(** C77.  A Solidity operation is one an algorithm would mutate exactly when its
    operator is among those shown for the algorithm. *)
Theorem C77_solidity_operators_shown : forall e t m d op n,
  sol_mutator_for e t = Some m -> described t d -> d_operators d <> [] -> sol_operation t op n ->
  (mu_mutable m n = Ok true <-> In op (d_operators d)).
Proof. exact sol_shown. Qed.
Print Assumptions C77_solidity_operators_shown.

(** For Vyper that does not hold: the unary minus is mutated and is not among
    those shown, and the shifts are shown and never mutated. *)
Theorem C77_vyper_operators_shown_refuted : exists e m d n o,
  vy_mutator_for e (Generic UnaryOp) = Some m /\ described (Generic UnaryOp) d /\
  is_vy "UnaryOp" n /\ has_field n "op" o /\ is_vy "USub" o /\ ~ In "-" (d_operators d) /\ mu_mutable m n = Ok true.
Proof. exact vy_shown_refuted. Qed.
Print Assumptions C77_vyper_operators_shown_refuted.

Theorem C77_vyper_shifts_shown_refuted : exists d, described (Generic BitshiftBinaryOp) d /\ In "<<" (d_operators d) /\
  forall e m n, vy_mutator_for e (Generic BitshiftBinaryOp) = Some m -> mu_mutable m n <> Ok true.
Proof. exact vy_shifts_refuted. Qed.
Print Assumptions C77_vyper_shifts_shown_refuted.

(** For the other binary operators it does.  (Missing: the shifts, the unary
    operators and the swapping of arguments.) *)
Theorem C77_vyper_operators_shown_partial : forall e t m d op n,
  vy_mutator_for e t = Some m -> described t d ->
  In t [Generic ArithmeticBinaryOp; Generic LogicalBinaryOp; Generic BitwiseBinaryOp; Generic ComparisonBinaryOp] ->
  vy_operation op n -> (mu_mutable m n = Ok true <-> In op (d_operators d)).
Proof. exact vy_shown. Qed.
Print Assumptions C77_vyper_operators_shown_partial.

Example C77_example :
  (exists d, described (Generic ArithmeticBinaryOp) d /\ d_operators d <> [] /\
     In "+" (d_operators d) /\ ~ In "<<" (d_operators d)) /\
  sol_operation (Generic ArithmeticBinaryOp) "+" (s_binop 1 "+" (s_ident 2 "x") (s_ident 3 "y")) /\
  vy_operation "+" (v_binop 1 "Add" (v_name 2 "x") (v_name 3 "y")).
Proof.
  split; [|split].
  - destruct (find_described (Generic ArithmeticBinaryOp)) as (d & E & Hd). vm_compute in E. injection E as <-.
    eexists. split; [exact Hd|]. repeat split; vm_compute; intuition discriminate.
  - split; vm_compute; reflexivity.
  - split; [left; vm_compute; reflexivity|]. eexists _, "Add". repeat split; [vm_compute; reflexivity..|now left].
Qed.
