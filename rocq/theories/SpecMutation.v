(** Specification vocabulary for the properties of counting and mutating. *)
From Coq Require Import String List NArith ZArith Bool.
From Verif Require Import Base Json Rng Permissions MutationType Traverse SpecTree.
Import ListNotations.
Open Scope list_scope.

(** Two positions are unrelated when neither lies below the other. *)
Definition unrelated (p q : path) : Prop := (forall r, q <> p ++ r) /\ (forall r, p <> q ++ r).

(** [ast'] is [ast] with the subtree at [p], and nothing else, replaced by
    [x]: the subtree at [p] is [x], subtrees at unrelated positions are the
    same, and every proper ancestor of [p] keeps its kind, its keys and its
    number of children. *)
Definition same_shape (a b : json) : Prop :=
  match a, b with
  | JArr l, JArr l' => length l = length l'
  | JObj o, JObj o' => map fst o = map fst o'
  | _, _ => False
  end.

Definition replaced_at (p : path) (x : json) (ast ast' : json) : Prop :=
  subtree p ast' = Some x /\
  (forall q, unrelated p q -> subtree q ast' = subtree q ast) /\
  (forall q i r, p = q ++ i :: r ->
     exists a a', subtree q ast = Some a /\ subtree q ast' = Some a' /\ same_shape a a').

(** The number a counting pass reports for a type (an absent type counts 0). *)
Definition reported (t : mutation_type) (c : count_table) : nat :=
  match ct_get t c with Some k => k | None => 0 end.

(** Request [i] applies the operator [m] to the node at position [p] and does
    nothing else; an error or a crash of the operator is passed on. *)
Definition acts_at (ps : permissions) (idm : json -> option N) (m : mutator)
  (fuel i : nat) (ast : json) (r : rng) (p : path) : Prop :=
  exists n, subtree p ast = Some n /\ mu_mutable m n = Ok true /\
    match mu_mutate m fuel n r with
    | Ok d => exists ast' s, make_mutation ps idm m fuel i ast r = Ok (ast', s) /\
                replaced_at p (md_node d) ast ast' /\
                mk_comment s = md_comment d /\ mk_result s = md_result d /\ mk_rng s = md_rng d
    | Err e => make_mutation ps idm m fuel i ast r = Err e
    | Panic x => make_mutation ps idm m fuel i ast r = Panic x
    | Diverge => make_mutation ps idm m fuel i ast r = Diverge
    end.

(** The operator accepts the node found at a position. *)
Definition accepted_at (m : mutator) (ast : json) (p : path) : bool :=
  match subtree p ast with
  | Some n => match mu_mutable m n with Ok b => b | _ => false end
  | None => false
  end.

(** The node at [p], or one of its ancestors, bears one of the names. *)
Definition inside_named (names : list string) (ast : json) (p : path) : Prop :=
  exists x f, In x (nodes_along p ast) /\ name_of x = Some f /\ In f names.

(** No node bearing one of the names lies strictly below another such node. *)
Definition not_nested (names : list string) (ast : json) : Prop :=
  forall p q x y f g, subtree p ast = Some x -> name_of x = Some f -> In f names ->
    q <> [] -> subtree q x = Some y -> name_of y = Some g -> ~ In g names.

(** The ids met from the root to [p], root first. *)
Definition id_chain (idm : json -> option N) (p : path) (ast : json) : list N :=
  flat_map (fun n => match idm n with Some i => [i] | None => [] end) (nodes_along p ast).
