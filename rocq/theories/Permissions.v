(** permissions.rs. *)
From Coq Require Import String List Bool.
From Verif Require Import Base.
Import ListNotations.
Open Scope string_scope.
Open Scope list_scope.

(** [Permission] (permissions.rs:154-160). *)
Inductive perm : Type := Allow | Deny.

(** [PermissionObject] (permissions.rs:119-128). *)
Inductive pobject : Type :=
| OValue (s : string) (p : perm)
| OAny (p : perm).

(** [PermissionScope] (permissions.rs:55-76). *)
Inductive pscope : Type :=
| SType (o : pobject)
| SName (o : pobject)
| SChildren (o : pobject)
| SAny (p : perm).

(** [PermissionAction] (permissions.rs:25-31). *)
Inductive paction : Type :=
| PMutate (s : pscope)
| PVisit (s : pscope).

(** [Permission::matches] (permissions.rs:163-168). *)
Definition perm_matches (p q : perm) : bool :=
  match p, q with Allow, Allow => true | Deny, Deny => true | _, _ => false end.

(** [PermissionObject::matches] (permissions.rs:136-149). *)
Definition pobject_matches (o o' : pobject) : bool :=
  match o with
  | OValue s p =>
      match o' with
      | OValue s' p' => (s =?s s') && perm_matches p p'
      | OAny _ => false
      end
  | OAny p =>
      match o' with
      | OValue _ p' => perm_matches p p'
      | OAny p' => perm_matches p p'
      end
  end.

(** [PermissionScope::matches] (permissions.rs:84-114). *)
Definition pscope_matches (s s' : pscope) : bool :=
  match s with
  | SType o => match s' with SType o' => pobject_matches o o' | _ => false end
  | SName o => match s' with SName o' => pobject_matches o o' | _ => false end
  | SChildren o => match s' with SChildren o' => pobject_matches o o' | _ => false end
  | SAny p =>
      match s' with
      | SType (OValue _ p') | SType (OAny p') => perm_matches p p'
      | SName (OValue _ p') | SName (OAny p') => perm_matches p p'
      | SChildren (OValue _ p') | SChildren (OAny p') => perm_matches p p'
      | SAny p' => perm_matches p p'
      end
  end.

(** [PermissionAction::matches] (permissions.rs:39-50). *)
Definition paction_matches (a a' : paction) : bool :=
  match a, a' with
  | PMutate s, PMutate s' => pscope_matches s s'
  | PVisit s, PVisit s' => pscope_matches s s'
  | _, _ => false
  end.

(** Derived [PartialEq]. *)
Definition perm_eq_dec (p q : perm) : {p = q} + {p <> q}. decide equality. Defined.
Definition pobject_eq_dec (p q : pobject) : {p = q} + {p <> q}.
  decide equality; auto using perm_eq_dec, string_dec. Defined.
Definition pscope_eq_dec (p q : pscope) : {p = q} + {p <> q}.
  decide equality; auto using perm_eq_dec, pobject_eq_dec. Defined.
Definition paction_eq_dec (p q : paction) : {p = q} + {p <> q}.
  decide equality; auto using pscope_eq_dec. Defined.

(** [Permissions] (permissions.rs:173-242): a vector of actions. *)
Definition permissions := list paction.

(** [add_permission] (192-194). *)
Definition add_permission (ps : permissions) (a : paction) : permissions := ps ++ [a].

(** [remove_permission] (201-212): removes the first equal entry. *)
Fixpoint remove_permission (ps : permissions) (a : paction) : permissions :=
  match ps with
  | [] => []
  | b :: ps => if paction_eq_dec b a then ps else b :: remove_permission ps a
  end.

(** [have_permission] (219-226). *)
Definition have_permission (ps : permissions) (a : paction) : bool :=
  existsb (fun b => paction_matches b a) ps.

(** [clear] (239-241). *)
Definition clear_permissions (_ : permissions) : permissions := [].

(** [convert_function_names_to_permissions]
    (mutagenyx/src/mutation_generator.rs:47-73). *)
Definition permissions_for_functions (names : list string) : permissions :=
  let ps :=
    match names with
    | [] => add_permission [] (PMutate (SAny Allow))
    | _ => fold_left
             (fun ps f =>
                add_permission (add_permission ps (PMutate (SName (OValue f Allow))))
                               (PMutate (SChildren (OValue f Allow))))
             names []
    end in
  add_permission ps (PVisit (SAny Allow)).
