(** The files of a Vyper run: C105. *)
From Coq Require Import String Ascii List NArith ZArith Bool.
From Verif Require Import Base Json Rng MutationType Traverse OpCommon VyMutators Language Generator Printer VyPrinter
  SpecTree SpecMutation SpecPrinter SpecTotal SpecAccept SpecGenerator SpecVyText SpecVyRead SpecVyEdit SpecVyOnce SpecDisk
  VyTextClaims VyReadClaims VyEditClaims VyEditDemo VyOnceClaims DiskFacts DiskClaims VyDisk GenWitness Samples.
Import ListNotations.
Open Scope string_scope.
Open Scope list_scope.

(** C105: when a run has ended, the file of each of its mutants holds a text
    that is read as the program of the run with one edit of the kind that the
    record names. *)
Theorem C105_vyper_files_read_as_one_edit : forall e W P fuel ast r l, rearranges (w_order W) ->
  cprogram_node l ast -> Forall no_interface l -> lean ast = true -> uncommented ast -> wf ast -> 2 <= length l ->
  (forall p n t, subtree p ast = Some n -> In t (rp_types P) -> vy_accepts e t n -> vy_crash_free t n) ->
  let evs := fst (generate (vyper_files e) W P fuel ast r) in
  forall file ast' mr, In (WroteMutant file ast' mr) evs -> small_ints ast' ->
  exists t l', mr_type mr = Some t /\ one_edit t l l' /\
    forall h, Forall (easy_def h) l' -> (N.of_nat h <= 36)%N -> narrow 150 (program_text 4 l') -> forallb spelled_def l' = true ->
    forall file_of oc fl text config d, by_name file_of -> (forall a s, vy_print oc fl a = Ok s -> text a = s) -> (exists s, vy_print oc fl ast' = Ok s) ->
    exists content, disk_after file_of text config d evs (file_of file) = Some content /\ reads content l'.
Proof. exact vyper_files_read. Qed.
Print Assumptions C105_vyper_files_read_as_one_edit.

(** And the files of two mutations that change an operator are read as two
    different programs. *)
Theorem C105_vyper_files_differ : forall e W P fuel ast r l, rearranges (w_order W) ->
  cprogram_node l ast -> Forall no_interface l -> lean ast = true -> uncommented ast -> wf ast -> 2 <= length l ->
  (forall p n t, subtree p ast = Some n -> In t (rp_types P) -> vy_accepts e t n -> vy_crash_free t n) ->
  let evs := fst (generate (vyper_files e) W P fuel ast r) in
  let fits := fun h l' => Forall (easy_def h) l' /\ narrow 150 (program_text 4 l') /\ forallb spelled_def l' = true in
  forall file1 ast1 mr1 t1 file2 ast2 mr2 t2, In (WroteMutant file1 ast1 mr1) evs -> In (WroteMutant file2 ast2 mr2) evs -> file1 <> file2 ->
  small_ints ast1 -> small_ints ast2 ->
  mr_type mr1 = Some t1 -> In t1 operator_kinds -> mr_type mr2 = Some t2 -> In t2 operator_kinds ->
  exists l1 l2, l1 <> l2 /\ one_edit t1 l l1 /\ one_edit t2 l l2 /\
  forall h, (N.of_nat h <= 36)%N -> fits h l1 -> fits h l2 ->
    forall file_of oc fl text config d, by_name file_of -> (forall a s, vy_print oc fl a = Ok s -> text a = s) ->
    (exists s, vy_print oc fl ast1 = Ok s) -> (exists s, vy_print oc fl ast2 = Ok s) ->
    exists content1 content2, disk_after file_of text config d evs (file_of file1) = Some content1 /\ reads content1 l1 /\
      disk_after file_of text config d evs (file_of file2) = Some content2 /\ reads content2 l2 /\ content1 <> content2.
Proof. exact vyper_files_differ. Qed.
Print Assumptions C105_vyper_files_differ.

(** The run of C100's example, which shows that it meets the hypotheses; here are
    its two files. *)
Definition vy_text (a : json) : string := match vy_print true (fun _ => "") a with Ok t => t | _ => "" end.
Example C105_vyper_example :
  let evs := fst (generate (vyper_files ex_env) ex_world op_params 20 demo_vy_node ex_rng) in
  mutant_files evs = ["out/x.vy_0.vy"; "out/x.vy_1.vy"] /\
  (forall a s, vy_print true (fun _ => "") a = Ok s -> vy_text a = s) /\
  forall config d, disk_after (fun p => p) vy_text config d evs "out/x.vy_0.vy" = Some (String.concat newline
     [ "# ArithmeticBinaryOp Mutator: Changed 'code' to 'code'"; ""; "owner: public(immutable(address))"; ""; "@external";
       "def f(x: uint256, y: bool=True) -> (uint256, bool):"; "    if x > (1 / self.t[""k""]):"; "        return x, y"; "    else:";
       "        log Done(x, who=msg.sender)"; "    for i in range(3):"; "        x += 2"; ""; ""; "" ]) /\
   disk_after (fun p => p) vy_text config d evs "out/x.vy_1.vy" = Some (String.concat newline
     [ "# ComparisonBinaryOp Mutator: Changed 'code' to 'code'"; ""; "owner: public(immutable(address))"; ""; "@external";
       "def f(x: uint256, y: bool=True) -> (uint256, bool):"; "    if x >= (1 + self.t[""k""]):"; "        return x, y"; "    else:";
       "        log Done(x, who=msg.sender)"; "    for i in range(3):"; "        x += 2"; ""; ""; "" ]).
Proof.
  split; [vm_compute; reflexivity|]. split; [intros a s H; unfold vy_text; rewrite H; reflexivity|]. intros config d. split; vm_compute; reflexivity.
Qed.
