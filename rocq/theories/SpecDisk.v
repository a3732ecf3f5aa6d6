(** Specification vocabulary for the files on the disk during a run. *)
From Coq Require Import String Ascii List Bool.
From Verif Require Import Base Json OpCommon Paths Generator Cli.
Import ListNotations.
Open Scope string_scope.
Open Scope list_scope.

(** Which file a path leads to.  Different paths may lead to one file, as
    "out/x.sol" and "out/./x.sol" do, but not paths that end in different names:
    links are left out. *)
Definition by_name (file_of : string -> string) : Prop :=
  forall p q, file_name p <> file_name q -> file_of p <> file_of q.

(** What every file holds. *)
Definition disk : Type := string -> option string.
Definition put (f : string) (content : option string) (d : disk) : disk :=
  fun g => if (g =?s f)%string then content else d g.

(** What an event does to the disk, when [text] is what is printed for a tree
    and [config] is the saved configuration.  Validating writes the temporary
    file and then removes it. *)
Definition disk_step (file_of : string -> string) (text : json -> string) (config : string) (d : disk) (ev : event) : disk :=
  match ev with
  | Validated tmp _ _ => put (file_of tmp) None d
  | WroteMutant f a _ => put (file_of f) (Some (text a)) d
  | WroteOriginal f a => put (file_of f) (Some (text a)) d
  | WroteConfig f => put (file_of f) (Some config) d
  | Tried _ _ | ShowedMutant _ _ | ShowedOriginal _ | ShowedConfig => d
  end.
Definition disk_after (file_of : string -> string) (text : json -> string) (config : string) (d : disk) (evs : list event) : disk :=
  fold_left (disk_step file_of text config) evs d.

(** [b'] is [b] with an underscore and something more after it. *)
Definition continues (b b' : string) : Prop := exists s, b' = String.append b (String "_" s).

(** Two inputs whose names do not get in each other's way: the second is not
    called like the first, nor like the first with an underscore and more. *)
Definition clear_of (g g' : gparams) : Prop :=
  forall b b', file_name (rp_file (gp_run g)) = Some b -> file_name (rp_file (gp_run g')) = Some b' -> b <> b' /\ ~ continues b b'.
