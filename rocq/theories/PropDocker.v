(** The Vyper compiler in its container: C106. *)
From Coq Require Import String Ascii List Bool.
From Verif Require Import Base Json Paths Prefs Config Compiler SpecDocker DockerFacts.
Import ListNotations.
Open Scope string_scope.
Open Scope list_scope.

(** C106: without a Vyper compiler of its own the machine uses the one in the
    container.  A valid program in a directory is then reported as one that does
    not compile, since the container is given the host's name of the file; and a
    file that is no valid program is accepted when another one, deeper down, is. *)
Theorem C106_container_compiles_refuted :
  exists m p f valid m' f' valid',
  has_container m valid /\ only_container m p /\ valid (place_of f) /\ vy_compiles m p f = false /\
  has_container m' valid' /\ only_container m' p /\ ~ valid' (place_of f') /\ vy_compiles m' p f' = true.
Proof.
  exists (container_machine (place_eqb (place_of "contracts/a.vy"))), [], "contracts/a.vy", (fun x => place_eqb (place_of "contracts/a.vy") x = true).
  exists (container_machine (place_eqb (place_of "x/x/a.vy"))), "./x/a.vy", (fun x => place_eqb (place_of "x/x/a.vy") x = true).
  split; [apply container_machine_has|]. split; [now apply container_machine_only|]. split; [vm_compute; reflexivity|]. split; [vm_compute; reflexivity|].
  split; [apply container_machine_has|]. split; [now apply container_machine_only|]. split; [vm_compute; discriminate|vm_compute; reflexivity].
Qed.
Print Assumptions C106_container_compiles_refuted.

(** For a file of the host's [/code], or one written [./name], the answer is
    right.  Missing for the whole claim: all other files, for which it fails. *)
Theorem C106_container_compiles_partial :
  forall m p f valid base, has_container m valid -> only_container m p -> file_name f = Some base -> in_view f ->
  (vy_compiles m p f = true <-> valid (place_of f)).
Proof. exact container_right. Qed.
Print Assumptions C106_container_compiles_partial.

(** No other file can be compiled in the container, even when it is a valid
    program (paths with ".." left aside). *)
Theorem C106_other_files_missed :
  forall p f base, file_name f = Some base -> ~ In ".." (steps f) -> ~ in_view f ->
  exists valid, valid (place_of f) /\ forall m, has_container m valid -> only_container m p -> vy_compiles m p f = false.
Proof. intros p f base F _. exact (container_misses p f base F). Qed.
Print Assumptions C106_other_files_missed.

(** The tree of the program: the tool goes on with the file [out], which the
    container was told to write.  With a temporary directory outside [/code], as
    it always is, the container writes a file of its own, and nothing reaches
    the host. *)
Theorem C106_tree_left_refuted :
  forall m p f out, vy_is_source_docker m p f = Ok out ->
  prefix "/" (m_tmp m) = true -> steps (m_tmp m) <> [] -> hd "" (steps (m_tmp m)) <> "code" ->
  seen (path_parent f) out = None.
Proof. intros m p f out H R N T. exact (tree_lost m p f out H R T N). Qed.
Print Assumptions C106_tree_left_refuted.

(** It does when everything is in [/code]. Missing as above. *)
Theorem C106_tree_left_partial :
  forall m p f out base, vy_is_source_docker m p f = Ok out -> place_of f = (true, ["code"; base]) ->
  prefix "/" (m_tmp m) = true -> hd "" (steps (m_tmp m)) = "code" ->
  seen (path_parent f) out = Some (place_of out).
Proof. exact tree_left. Qed.
Print Assumptions C106_tree_left_partial.

Definition accepting (tmp : string) : machine :=
  {| m_exec := container_exec (fun _ => true); m_dash_o := fun _ => None; m_json := fun _ => None; m_create := fun _ => false; m_tmp := tmp |}.
Definition taking (tmp : string) : machine :=
  {| m_exec := fun c _ => if c =?s "docker" then Some true else None; m_dash_o := fun _ => None; m_json := fun _ => None; m_create := fun _ => false; m_tmp := tmp |}.

(** Files of each sort, and both answers of the container. *)
Example C106_example :
  in_view "/code/a.vy" /\ in_view "./a.vy" /\ ~ in_view "a.vy" /\ ~ in_view "/home/u/a.vy" /\ ~ in_view "./x/a.vy" /\
  file_name "./a.vy" = Some "a.vy" /\
  has_container (accepting "/tmp") (fun _ => true = true) /\ only_container (accepting "/tmp") [] /\
  vy_compiles (accepting "/tmp") [] "./a.vy" = true /\ vy_compiles (accepting "/tmp") [] "a.vy" = false /\
  vy_compiles (container_machine (fun _ => false)) [] "./a.vy" = false /\
  vy_is_source_docker (taking "/tmp") [] "./a.vy" = Ok "/tmp/a.vy.json" /\ seen (path_parent "./a.vy") "/tmp/a.vy.json" = None /\
  vy_is_source_docker (taking "/code/tmp") [] "/code/a.vy" = Ok "/code/tmp/a.vy.json" /\
  seen (path_parent "/code/a.vy") "/code/tmp/a.vy.json" = Some (true, ["code"; "tmp"; "a.vy.json"]).
Proof.
  split; [exists "a.vy"; left; vm_compute; reflexivity|]. split; [exists "a.vy"; right; split; vm_compute; reflexivity|].
  do 3 (split; [intros (b & [H|(H & P)]); vm_compute in H; try discriminate H; vm_compute in P; discriminate P|]).
  split; [vm_compute; reflexivity|]. split; [exact (container_machine_has (fun _ => true))|].
  split; [exact (container_machine_only (fun _ => true) [] eq_refl)|].
  repeat (split; [vm_compute; reflexivity|]). vm_compute. reflexivity.
Qed.
