(** What a container sees of the host's files.  Independent of the code that
    starts it.

    [docker run -v h:/code image args] makes the host's directory [h] visible
    as [/code] and nothing else of the host's files; [h] is a directory of the
    host when it starts with a slash or a dot, otherwise it is the name of a
    volume, and it must not be empty.  The image [vyperlang/vyper] starts its
    compiler in [/code]. *)
From Coq Require Import String Ascii List Bool.
From Verif Require Import Base Paths Prefs Compiler.
Import ListNotations.
Open Scope string_scope.
Open Scope list_scope.

(** The names along a path. *)
Definition steps (s : string) : list string :=
  filter (fun c => negb ((c =?s "") || (c =?s "."))) (split_on "/" s).

(** A file: whether from the root or from the current directory, and the names
    on the way to it. *)
Definition place : Type := bool * list string.
Definition place_of (s : string) : place := (prefix "/" s, steps s).

(** The host's file that the path [a] stands for in a container with [h]
    mounted: none when [a] is a file of the container's own. *)
Definition seen (h a : string) : option place :=
  if prefix "/" h || prefix "." h then
    if prefix "/" a then
      match steps a with
      | top :: rest => if top =?s "code" then Some (prefix "/" h, steps h ++ rest) else None
      | [] => None
      end
    else Some (prefix "/" h, steps h ++ steps a)
  else None.

(** The machine has the container: the compiler in it accepts the file that it
    is given when that is one of the host's valid programs. *)
Definition has_container (m : machine) (valid : place -> Prop) : Prop :=
  forall h options f, (options = [] \/ exists root, options = ["-p"; root]) ->
  (m_exec m "docker" (["run"; "-v"; String.append h ":/code"; "vyperlang/vyper"] ++ options ++ [f]) = Some true <->
   exists x, seen h f = Some x /\ valid x).

(** The machine has no working compiler outside the container. *)
Definition only_container (m : machine) (p : prefs) : Prop :=
  forall args, m_exec m (vyperc p) args <> Some true.

(** The files for which it goes well: those in the host's own [/code], and those
    written as [./name]. *)
Definition in_view (f : string) : Prop :=
  exists base, place_of f = (true, ["code"; base]) \/ (place_of f = (false, [base]) /\ prefix "./" f = true).
