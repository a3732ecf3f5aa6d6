(** Specification vocabulary about positions in a JSON tree, independent of
    the traversal code. *)
From Coq Require Import String List.
From Verif Require Import Base Json.
Import ListNotations.
Open Scope list_scope.

(** A position: the child numbers to follow from the root. *)
Definition path := list nat.

(** The subtree at a position. *)
Fixpoint subtree (p : path) (j : json) : option json :=
  match p with
  | [] => Some j
  | i :: p => match nth_error (children j) i with
              | Some c => subtree p c
              | None => None
              end
  end.

(** [j] with its [i]-th child replaced; keys and array length unchanged. *)
Fixpoint set_value (i : nat) (x : json) (o : list (string * json)) : list (string * json) :=
  match o, i with
  | [], _ => []
  | (k, _) :: o, O => (k, x) :: o
  | kv :: o, S i => kv :: set_value i x o
  end.

Definition set_child (i : nat) (x : json) (j : json) : json :=
  match j with
  | JArr l => JArr (replace_at i x l)
  | JObj o => JObj (set_value i x o)
  | _ => j
  end.

(** [j] with the subtree at [p] replaced by [x]. *)
Fixpoint set_subtree (p : path) (x : json) (j : json) : json :=
  match p with
  | [] => x
  | i :: p => match nth_error (children j) i with
              | Some c => set_child i (set_subtree p x c) j
              | None => j
              end
  end.

(** All positions of a tree in document order (parent first, children left to
    right, object values in key order). *)
Fixpoint positions (j : json) : list path :=
  [] ::
  match j with
  | JArr l =>
      (fix go (i : nat) (l : list json) : list path :=
         match l with
         | [] => []
         | x :: l => map (cons i) (positions x) ++ go (S i) l
         end) 0 l
  | JObj o =>
      (fix go (i : nat) (o : list (string * json)) : list path :=
         match o with
         | [] => []
         | (_, x) :: o => map (cons i) (positions x) ++ go (S i) o
         end) 0 o
  | _ => []
  end.

(** [l1] is obtained from [l2] by dropping elements. *)
Inductive subseq {A} : list A -> list A -> Prop :=
| subseq_nil : forall l, subseq [] l
| subseq_take : forall x l1 l2, subseq l1 l2 -> subseq (x :: l1) (x :: l2)
| subseq_skip : forall x l1 l2, subseq l1 l2 -> subseq l1 (x :: l2).

(** The nodes met on the way from the root down to (and including) [p]. *)
Fixpoint nodes_along (p : path) (j : json) : list json :=
  j :: match p with
       | [] => []
       | i :: p => match nth_error (children j) i with
                   | Some c => nodes_along p c
                   | None => []
                   end
       end.
