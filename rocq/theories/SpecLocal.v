(** Vocabulary for what a change of one node does to the printed program. *)
From Coq Require Import String List NArith Bool.
From Verif Require Import Base Json Printer SpecTree SpecPrinter.
Import ListNotations.
Open Scope string_scope.
Open Scope list_scope.

(** What is printed before and after the change is the same, or the same but for
    what is printed in one place: there the node [x], here the node [x'].
    ([print] is given the settings of the place and the node.) *)
Inductive changed_at {C} (print : C -> json -> list cmd) (x x' : json) : list cmd -> list cmd -> Prop :=
| Not_shown l : changed_at print x x' l l
| Shown_at before c after :
    changed_at print x x' (before ++ print c x ++ after) (before ++ print c x' ++ after).

(** The key under which the node at a position is kept by the object above it,
    directly or in a list. *)
Fixpoint kept_under (k : option string) (p : path) (j : json) : option string :=
  match p with
  | [] => k
  | i :: p =>
      match j with
      | JObj o => match nth_error o i with Some kv => kept_under (Some (fst kv)) p (snd kv) | None => None end
      | JArr l => match nth_error l i with Some v => kept_under k p v | None => None end
      | _ => None
      end
  end.

Definition keeper (p : path) (j : json) : option string := kept_under None p j.

(** [y] is above the position [p] of [j]. *)
Definition above (p : path) (j y : json) : Prop :=
  exists q r, p = q ++ r /\ r <> [] /\ subtree q j = Some y.

(** ** Text *)

(** [w] is the text of the requests, begun on a fresh line at indentation level
    [ind], when no line has to be broken: on every page wide enough it is what
    is written. *)
Definition text_of_requests (ind : N) (l : list cmd) (w : string) : Prop :=
  exists enough, forall page oc row, (enough <= page)%N ->
    exists st, exec (Geo 4 page oc) l (PState row 1 ind) = Ok (w, st).

(** No comments, no crash, no line breaks within a token. *)
Definition simple_requests (l : list cmd) : Prop := plain l /\ Forall one_line (tokens l).

(** The texts are the same but for one place: there the node [x], here [x'],
    both at the same indentation level. *)
Definition differ_in_place {C} (print : C -> json -> list cmd) (x x' : json) (text text' : string) : Prop :=
  text = text' \/
  exists before c ind w w' after,
    text_of_requests ind (print c x) w /\ text_of_requests ind (print c x') w' /\
    text = String.append before (String.append w after) /\
    text' = String.append before (String.append w' after).

(** The requests differ in one token. *)
Definition token_changes (w w' : string) (l l' : list cmd) : Prop :=
  exists before after, l = before ++ Tok w :: after /\ l' = before ++ Tok w' :: after.

(** The texts differ in one word. *)
Definition word_changes (w w' : string) (text text' : string) : Prop :=
  exists before after, text = String.append before (String.append w after) /\
    text' = String.append before (String.append w' after).

(** No node satisfying [P] is kept under one of the given keys. *)
Definition never_under (keys : list string) (P : json -> Prop) (ast : json) : Prop :=
  forall p x k, subtree p ast = Some x -> P x -> keeper p ast = Some k -> ~ In k keys.

(** Every node satisfying [P] has nothing but [Q] above it. *)
Definition only_below (Q P : json -> Prop) (ast : json) : Prop :=
  forall p x y, subtree p ast = Some x -> P x -> above p ast y -> Q y.
