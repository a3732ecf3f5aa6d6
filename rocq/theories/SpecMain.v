(** What the standard output of the program should hold.  Independent of
    [main]. *)
From Coq Require Import String Ascii List NArith Bool.
From Verif Require Import Base Json MutationType Traverse OpCommon Generator.
Import ListNotations.
Open Scope string_scope.
Open Scope list_scope.

Definition joined (l : list string) : string := String.concat "" l.

(** A line that starts with some words. *)
Definition line_of (words s : string) : Prop :=
  exists rest, s = joined [words; rest; String (ascii_of_nat 10) ""].

(** The remarks of a run, in their order; the last one is made when fewer
    mutants can be had than were asked for. *)
Definition remarks (s : string) : Prop :=
  exists a b c, s = joined [a; b; c] /\
  line_of "Of the requested mutation algorithms, the AST contains nodes for " a /\
  line_of "AST supports at most " b /\
  (c = "" \/ line_of "Reached the limit of mutable nodes in the AST, " c).

(** [l] are the texts of the trees. *)
Definition texts_of (text : json -> res string) : list json -> list string -> Prop :=
  Forall2 (fun a t => text a = Ok t).

(** Every mutant in a file is announced by its kind and its file. *)
Inductive announced : list event -> list string -> Prop :=
| No_event : announced [] []
| A_mutant f a mr t evs l : mr_type mr = Some t -> announced evs l ->
    announced (WroteMutant f a mr :: evs) (joined [show_mt t; " used to create mutant written to "; f; String (ascii_of_nat 10) ""] :: l)
| Other_event ev evs l : (forall f a mr, ev <> WroteMutant f a mr) -> announced evs l -> announced (ev :: evs) l.

(** [s] holds the texts [l], one after the other. *)
Inductive holds : string -> list string -> Prop :=
| No_text s : holds s []
| One_text before x after l : holds after l -> holds (joined [before; x; after]) (x :: l).
