(** C29, C30: mutants are well-formed JSON, and the laws of the editing
    functions everything else is built from. *)
From Coq Require Import String List NArith ZArith Bool.
From Verif Require Import Base Json JsonFacts Rng Permissions MutationType Traverse OpCommon SolMutators VyMutators
  Comments Language SpecTree SpecMutation SpecJson OpWf JsonLaws Samples Witness.
Import ListNotations.
Open Scope list_scope.
Open Scope string_scope.

(** C29, Solidity: every mutant (operator and comment together) of every
    canonical tree, for every set of selected operators, is canonical. *)
Theorem C29_solidity_mutants_are_canonical :
  forall e ts ps pm fuel ast t i r ast' mr r',
  canonical ast ->
  mutate_ast (solidity e) ps (select_mutators (solidity e) ts []) pm fuel ast t i r = Ok (ast', mr, r') ->
  canonical ast'.
Proof. exact sol_mutant_canonical. Qed.
Print Assumptions C29_solidity_mutants_are_canonical.

Example C29_solidity_example :
  canonical ex_unit /\ exists ast' mr r',
  mutate_ast (solidity ex_env) ex_all (select_mutators (solidity ex_env) all_mutation_types [])
    (match calculate_node_paths ex_all sol_id ex_unit with Ok m => m | _ => [] end) 10 ex_unit (Generic SwapOperatorArguments) 0 ex_rng = Ok (ast', mr, r') /\
  ast' <> ex_unit /\ canonical ast'.
Proof.
  assert (Hc : canonical ex_unit) by (apply canonical_wf, wf_check; vm_compute; reflexivity).
  split; [exact Hc|]. eexists _, _, _. split; [vm_compute; reflexivity|].
  split; [vm_compute; discriminate|]. apply canonical_wf, wf_check. vm_compute. reflexivity.
Qed.

(** C29, Vyper. *)
Theorem C29_vyper_mutants_are_canonical :
  forall e ts ps pm fuel ast t i r ast' mr r',
  canonical ast ->
  mutate_ast (vyper e) ps (select_mutators (vyper e) ts []) pm fuel ast t i r = Ok (ast', mr, r') ->
  canonical ast'.
Proof. exact vy_mutant_canonical. Qed.
Print Assumptions C29_vyper_mutants_are_canonical.

Example C29_vyper_example :
  canonical ex_module /\ exists ast' mr r',
  mutate_ast (vyper ex_env) ex_all (select_mutators (vyper ex_env) all_mutation_types [])
    (match calculate_node_paths ex_all vy_id ex_module with Ok m => m | _ => [] end) 10 ex_module (Generic DeleteStatement) 0 ex_rng = Ok (ast', mr, r') /\
  ast' <> ex_module /\ canonical ast'.
Proof.
  assert (Hc : canonical ex_module) by (apply canonical_wf, wf_check; vm_compute; reflexivity).
  split; [exact Hc|]. eexists _, _, _. split; [vm_compute; reflexivity|].
  split; [vm_compute; discriminate|]. apply canonical_wf, wf_check. vm_compute. reflexivity.
Qed.

(** C30.  Reading an object with a key that has no '/' and no '~' is looking
    the key up. *)
Theorem C30_reading :
  forall o k, ordinary k -> kget (JObj o) k = assoc k o.
Proof. exact read_law. Qed.
Print Assumptions C30_reading.

(** C30.  Writing a key: it is then read back; every other key of an object is
    untouched; on a value that is not an object a missing key changes nothing;
    the last write wins; writing back what is there changes nothing. *)
Theorem C30_writing :
  forall j k v, ordinary k ->
  (is_object j = true \/ kget j k <> None -> kget (set_key j k v) k = Some v) /\
  (is_object j = true -> forall k', ordinary k' -> k' <> k -> kget (set_key j k v) k' = kget j k') /\
  (is_object j = false -> kget j k = None -> set_key j k v = j) /\
  (is_object j = true -> forall w, set_key (set_key j k v) k w = set_key j k w) /\
  (is_object j = true -> kget j k = Some v -> set_key j k v = j).
Proof. exact set_laws. Qed.
Print Assumptions C30_writing.

(** C30.  Taking a key returns its value and leaves null, every other key is
    untouched, and writing the key afterwards is as if it had not been
    taken. *)
Theorem C30_taking :
  forall o k v j, ordinary k -> take_key (JObj o) k = Some (v, j) ->
  kget (JObj o) k = Some v /\ kget j k = Some JNull /\
  (forall k', ordinary k' -> k' <> k -> kget j k' = kget (JObj o) k') /\
  (forall w, set_key j k w = set_key (JObj o) k w).
Proof. exact take_law. Qed.
Print Assumptions C30_taking.

Example C30_example :
  let j := mkobj [("body", JArr []); ("name", JStr "f")] in
  ordinary "body" /\
  take_key j "body" = Some (JArr [], mkobj [("body", JNull); ("name", JStr "f")]) /\
  set_key j "id" (JBool true) = mkobj [("body", JArr []); ("id", JBool true); ("name", JStr "f")] /\
  set_key (JArr [JNull]) "id" (JBool true) = JArr [JNull].
Proof. vm_compute. repeat split. Qed.

(** Why the keys are restricted: a key with a '/' can be written but not read
    back. *)
Theorem C30_slash_key_is_lost :
  exists o k v, kget (set_key (JObj o) k v) k = None /\ kget (JObj o) k = None.
Proof. exact slash_key_lost. Qed.
Print Assumptions C30_slash_key_is_lost.
