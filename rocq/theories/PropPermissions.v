(** C40-C42: permission sets and mutation names. *)
From Coq Require Import String List Bool Arith Sorted.
From Verif Require Import Base Json Permissions MutationType SpecPermissions PermFacts.
Import ListNotations.
Open Scope string_scope.
Open Scope list_scope.

(** C40.  After any history of additions, removals and clears, a query
    succeeds exactly when some permission held at that time grants it. *)
Theorem C40_query_after_any_history :
  forall h a,
  have_permission (fold_left apply_change h []) a = true <->
  exists b, copies b h > 0 /\ grants b a.
Proof. exact history_lemma. Qed.
Print Assumptions C40_query_after_any_history.

Example C40_example :
  let f := PMutate (SName (OValue "f" Allow)) in
  let h := [Added f; Added (PMutate (SName (OAny Allow))); Added f; Removed f] in
  copies f h = 1 /\
  have_permission (fold_left apply_change h []) (PMutate (SName (OValue "g" Allow))) = true /\
  have_permission (fold_left apply_change h []) (PVisit (SName (OValue "g" Allow))) = false.
Proof. repeat split. Qed.

(** C40.  Adding a permission revokes nothing and grants what it says. *)
Theorem C40_adding_never_revokes :
  forall ps a q,
  (have_permission ps q = true -> have_permission (add_permission ps a) q = true) /\
  (grants a q -> have_permission (add_permission ps a) q = true).
Proof. exact (fun ps a q => conj (add_monotone ps a q) (add_granted ps a q)). Qed.
Print Assumptions C40_adding_never_revokes.

(** C40.  Removing what was just added restores every answer, also when an
    equal permission was already there. *)
Theorem C40_removing_undoes_adding :
  forall ps a q,
  have_permission (remove_permission (add_permission ps a) a) q = have_permission ps q.
Proof. exact remove_undoes_add. Qed.
Print Assumptions C40_removing_undoes_adding.

Example C40_adding_example :
  let v := PVisit (SAny Allow) in
  have_permission (add_permission [] v) v = true /\
  have_permission (remove_permission (add_permission [v] v) v) v = true /\
  have_permission (remove_permission (add_permission [] v) v) v = false.
Proof. repeat split. Qed.

(** C41 is false of the code: with a wildcard allow in the set, a stored deny
    for a name does not stop the name from being mutated. *)
Theorem C41_deny_blocks_refuted :
  exists ps f,
  have_permission (add_permission ps (PMutate (SName (OValue f Deny)))) (PMutate (SName (OValue f Allow))) = true.
Proof. exact deny_refuted. Qed.
Print Assumptions C41_deny_blocks_refuted.

(** What the code does instead: no stored deny, whatever it names, has any
    effect on a request to be allowed something. *)
Theorem C41_deny_is_ignored :
  forall ps d q, action_perm d = Deny -> action_perm q = Allow ->
  have_permission (add_permission ps d) q = have_permission ps q.
Proof. exact deny_ignored. Qed.
Print Assumptions C41_deny_is_ignored.

(** The part of C41 that holds.  Missing: sets that also hold allow entries. *)
Theorem C41_deny_blocks_partial :
  forall ps q, (forall b, In b ps -> action_perm b = Deny) -> action_perm q = Allow ->
  have_permission ps q = false.
Proof. exact deny_only. Qed.
Print Assumptions C41_deny_blocks_partial.

Example C41_example :
  have_permission [PMutate (SAny Deny); PMutate (SName (OValue "f" Deny))] (PMutate (SName (OValue "f" Allow))) = false.
Proof. reflexivity. Qed.

(** C42.  A string is read as a type exactly when it is that type's name, and
    different types have different names. *)
Theorem C42_names_are_unambiguous :
  (forall s m, read_mt s = Ok m <-> s = show_mt m) /\
  (forall m m', show_mt m = show_mt m' -> m = m').
Proof. exact (conj read_shown show_injective). Qed.
Print Assumptions C42_names_are_unambiguous.

(** C42.  A command line list selects the types named, in the order of the
    list; the other strings are skipped. *)
Theorem C42_list_selects_the_types_named :
  forall l,
  (forall m, In m (read_mts l) <-> In (show_mt m) l) /\
  map show_mt (read_mts l) =
    filter (fun s => existsb (fun m => show_mt m =?s s) all_mutation_types) l.
Proof. exact (fun l => conj (fun m => read_mts_in m l) (read_mts_order l)). Qed.
Print Assumptions C42_list_selects_the_types_named.

(** C42.  The list of all types has every type, once, in the order of the
    names. *)
Theorem C42_all_types_listed_once :
  (forall m, In m all_mutation_types) /\
  StronglySorted (fun a b => str_ltb a b = true) (map show_mt all_mutation_types).
Proof. exact all_types_complete. Qed.
Print Assumptions C42_all_types_listed_once.

Example C42_example :
  read_mts ["Require"; "require"; "Integer"; ""; "Require"] =
  [Solidity Require; Generic Integer; Solidity Require].
Proof. reflexivity. Qed.
