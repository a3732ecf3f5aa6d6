(** The files of a Vyper run, read. *)
From Coq Require Import String Ascii List NArith ZArith Bool.
From Verif Require Import Base Json Rng MutationType Traverse OpCommon VyMutators Language Generator Printer VyPrinter
  SpecTree SpecMutation SpecPrinter SpecTotal SpecAccept SpecGenerator SpecVyText SpecVyRead SpecVyEdit SpecVyOnce SpecDisk
  VyTextClaims VyReadClaims VyEditClaims VyOnceClaims DiskFacts DiskClaims.
Import ListNotations.
Open Scope string_scope.
Open Scope list_scope.

Lemma vy_supported_files e : supported (vyper_files e).
Proof. exists e. right. reflexivity. Qed.

Lemma vyper_files_read : forall e W P fuel ast r l, rearranges (w_order W) ->
  cprogram_node l ast -> Forall no_interface l -> lean ast = true -> uncommented ast -> wf ast -> 2 <= length l ->
  (forall p n t, subtree p ast = Some n -> In t (rp_types P) -> vy_accepts e t n -> vy_crash_free t n) ->
  let evs := fst (generate (vyper_files e) W P fuel ast r) in
  forall file ast' mr, In (WroteMutant file ast' mr) evs -> small_ints ast' ->
  exists t l', mr_type mr = Some t /\ one_edit t l l' /\
    forall h, Forall (easy_def h) l' -> (N.of_nat h <= 36)%N -> narrow 150 (program_text 4 l') -> forallb spelled_def l' = true ->
    forall file_of oc fl text config d, by_name file_of -> (forall a s, vy_print oc fl a = Ok s -> text a = s) -> (exists s, vy_print oc fl ast' = Ok s) ->
    exists content, disk_after file_of text config d evs (file_of file) = Some content /\ reads content l'.
Proof.
  intros e W P fuel ast r l Ho C Ni L U Wf Len Cf evs file ast' mr I S.
  destruct (mutants_read e W P fuel ast r l Ho C Ni L U Wf Len Cf ast' mr (wrote_mutant _ _ _ _ I) S) as (t & l' & A & B & R).
  exists t, l'. split; [exact A|]. split; [exact B|]. intros h F Hh N Sp file_of oc fl text config d Bn Tx (s & Ps). exists (text ast').
  split; [exact (run_keeps file_of text config Bn _ W P fuel ast r d file ast' mr (vy_supported_files e) I)|]. rewrite (Tx _ _ Ps). exact (R oc fl h s F Hh N Sp Ps).
Qed.

Lemma vyper_files_differ : forall e W P fuel ast r l, rearranges (w_order W) ->
  cprogram_node l ast -> Forall no_interface l -> lean ast = true -> uncommented ast -> wf ast -> 2 <= length l ->
  (forall p n t, subtree p ast = Some n -> In t (rp_types P) -> vy_accepts e t n -> vy_crash_free t n) ->
  let evs := fst (generate (vyper_files e) W P fuel ast r) in
  let fits := fun h l' => Forall (easy_def h) l' /\ narrow 150 (program_text 4 l') /\ forallb spelled_def l' = true in
  forall file1 ast1 mr1 t1 file2 ast2 mr2 t2, In (WroteMutant file1 ast1 mr1) evs -> In (WroteMutant file2 ast2 mr2) evs -> file1 <> file2 ->
  small_ints ast1 -> small_ints ast2 ->
  mr_type mr1 = Some t1 -> In t1 operator_kinds -> mr_type mr2 = Some t2 -> In t2 operator_kinds ->
  exists l1 l2, l1 <> l2 /\ one_edit t1 l l1 /\ one_edit t2 l l2 /\
  forall h, (N.of_nat h <= 36)%N -> fits h l1 -> fits h l2 ->
    forall file_of oc fl text config d, by_name file_of -> (forall a s, vy_print oc fl a = Ok s -> text a = s) ->
    (exists s, vy_print oc fl ast1 = Ok s) -> (exists s, vy_print oc fl ast2 = Ok s) ->
    exists content1 content2, disk_after file_of text config d evs (file_of file1) = Some content1 /\ reads content1 l1 /\
      disk_after file_of text config d evs (file_of file2) = Some content2 /\ reads content2 l2 /\ content1 <> content2.
Proof.
  intros e W P fuel ast r l Ho C Ni L U Wf Len Cf evs fits file1 ast1 mr1 t1 file2 ast2 mr2 t2 I1 I2 Ne S1 S2 T1 K1 T2 K2.
  destruct (wrote_two _ _ _ _ _ _ _ I1 I2 Ne) as (j1 & j2 & N1 & N2 & D).
  destruct (vy_texts_once e W P fuel ast r l Ho C Ni L U Wf Len Cf j1 j2 ast1 mr1 t1 ast2 mr2 t2 N1 N2 D S1 S2 T1 K1 T2 K2) as (l1 & l2 & Dl & E1 & E2 & _ & _ & R).
  exists l1, l2. split; [exact Dl|]. split; [exact E1|]. split; [exact E2|]. intros h Hh F1 F2 file_of oc fl text config d Bn Tx (s1 & P1) (s2 & P2).
  exists (text ast1), (text ast2). destruct (R oc fl oc fl h s1 s2 Hh F1 F2 P1 P2) as (R1 & R2 & Dt). rewrite (Tx _ _ P1), (Tx _ _ P2).
  pose proof (run_keeps file_of text config Bn _ W P fuel ast r d file1 ast1 mr1 (vy_supported_files e) I1) as Q1. rewrite (Tx _ _ P1) in Q1.
  pose proof (run_keeps file_of text config Bn _ W P fuel ast r d file2 ast2 mr2 (vy_supported_files e) I2) as Q2. rewrite (Tx _ _ P2) in Q2.
  split; [exact Q1|]. split; [exact R1|]. split; [exact Q2|]. split; [exact R2|exact Dt].
Qed.
