(** json_ast_language_interface.rs: the operations the command line uses. *)
From Coq Require Import String List NArith ZArith Bool.
From Verif Require Import Base Json Rng Permissions MutationType Traverse OpCommon
  SolMutators VyMutators Comments.
Import ListNotations.
Open Scope string_scope.
Open Scope list_scope.

(** What a [JSONLanguageDelegate] supplies (json_language_delegate.rs). *)
Record lang : Type := {
  l_id : json -> option N;
  l_member : json -> N -> bool;
  l_insert : json -> N -> json -> json;
  l_mutator_for : mutation_type -> option mutator
}.

(** The Solidity delegate (solidity/language_interface.rs). *)
Definition solidity (e : env) : lang := {|
  l_id := sol_id; l_member := sol_member; l_insert := sol_insert;
  l_mutator_for := sol_mutator_for e
|}.

(** The Vyper delegate (vyper/language_interface.rs). *)
Definition vyper (e : env) : lang := {|
  l_id := vy_id; l_member := vy_member; l_insert := vy_insert;
  l_mutator_for := vy_mutator_for e
|}.

(** [HashMap::insert]. *)
Fixpoint mm_insert (t : mutation_type) (m : mutator) (ms : mutator_map) : mutator_map :=
  match ms with
  | [] => [(t, m)]
  | (t', m') :: ms => if mt_eqb t t' then (t', m) :: ms else (t', m') :: mm_insert t m ms
  end.

Fixpoint mm_get (t : mutation_type) (ms : mutator_map) : option mutator :=
  match ms with
  | [] => None
  | (t', m) :: ms => if mt_eqb t t' then Some m else mm_get t ms
  end.

(** [select_mutators_for_mutation_types] (83-103). *)
Definition select_mutators (L : lang) (ts : list mutation_type) (ms : mutator_map) : mutator_map :=
  fold_left (fun ms t => match l_mutator_for L t with
                         | Some m => mm_insert (mu_type m) m ms
                         | None => ms
                         end) ts ms.

(** [mutate_ast] (132-183): the mutant, its result record, and the generator. *)
Definition mutate_ast (L : lang) (ps : permissions) (ms : mutator_map) (pm : path_map)
  (fuel : nat) (ast : json) (t : mutation_type) (index : nat) (r : rng)
  : res (json * mutator_result * rng) :=
  match mm_get t ms with
  | None => Panic "called `Option::unwrap()` on a `None` value"
  | Some m =>
      let? (ast1, s) := make_mutation ps (l_id L) m fuel index ast r in
      let ast2 :=
        match mk_comment s with
        | Some c =>
            match pm_get (mk_node_id s) pm with
            | Some p => insert_comment_by_path (l_id L) (l_member L) (l_insert L) ast1 c p
            | None => ast1
            end
        | None => ast1
        end in
      let mr := mk_result s in
      Ok (ast2, {| mr_type := mr_type mr; mr_index := Some index; mr_node := mr_node mr;
                   mr_hash := mr_hash mr |}, mk_rng s)
  end.
