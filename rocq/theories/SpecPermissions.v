(** Specification vocabulary for permissions: what a stored permission is
    about, independent of how the code compares two of them. *)
From Coq Require Import String List Bool Arith.
From Verif Require Import Base Permissions.
Import ListNotations.
Open Scope list_scope.

(** A single fact a permission can speak about: a verb, the aspect of a node
    it concerns, a name, and whether it is allowed or denied. *)
Inductive verb := ToMutate | ToVisit.
Inductive aspect := OfType | OfName | OfChildren | OfAnything.
Record fact : Type := { f_verb : verb; f_aspect : aspect; f_name : string; f_perm : perm }.

(** The facts an object, a scope, an action stand for: a wildcard stands for
    the facts about all names, or about all aspects and all names. *)
Definition object_says (o : pobject) (f : fact) : Prop :=
  match o with
  | OValue s p => f_name f = s /\ f_perm f = p
  | OAny p => f_perm f = p
  end.

Definition scope_says (s : pscope) (f : fact) : Prop :=
  match s with
  | SType o => f_aspect f = OfType /\ object_says o f
  | SName o => f_aspect f = OfName /\ object_says o f
  | SChildren o => f_aspect f = OfChildren /\ object_says o f
  | SAny p => f_perm f = p
  end.

Definition action_says (a : paction) (f : fact) : Prop :=
  match a with
  | PMutate s => f_verb f = ToMutate /\ scope_says s f
  | PVisit s => f_verb f = ToVisit /\ scope_says s f
  end.

(** [b] grants [a]: everything [a] stands for, [b] stands for too. *)
Definition grants (b a : paction) : Prop := forall f, action_says a f -> action_says b f.

(** A history of changes to a permission set. *)
Inductive change := Added (a : paction) | Removed (a : paction) | Cleared.

Definition apply_change (ps : permissions) (c : change) : permissions :=
  match c with
  | Added a => add_permission ps a
  | Removed a => remove_permission ps a
  | Cleared => clear_permissions ps
  end.

(** How many copies of [a] are held after a history: one more for each
    addition, one less (if there is one) for each removal, none after a
    clear. *)
Definition copies_step (a : paction) (n : nat) (c : change) : nat :=
  match c with
  | Added b => if paction_eq_dec a b then S n else n
  | Removed b => if paction_eq_dec a b then pred n else n
  | Cleared => 0
  end.
Definition copies (a : paction) (h : list change) : nat := fold_left (copies_step a) h 0.

(** Whether an action is about denying. *)
Definition object_perm (o : pobject) : perm := match o with OValue _ p => p | OAny p => p end.
Definition scope_perm (s : pscope) : perm :=
  match s with
  | SType o | SName o | SChildren o => object_perm o
  | SAny p => p
  end.
Definition action_perm (a : paction) : perm :=
  match a with PMutate s | PVisit s => scope_perm s end.
