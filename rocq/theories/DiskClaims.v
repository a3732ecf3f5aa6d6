(** What is left on the disk by a run and by a command. *)
From Coq Require Import String Ascii List Bool NArith ZArith Arith Lia.
From Verif Require Import Base Json Rng Permissions MutationType Traverse OpCommon Language Paths Generator
  Prefs Config Compiler Cli
  SpecTree SpecMutation SpecGenerator SpecDisk GenLaws GenMore PathFacts DiskFacts.
Import ListNotations.
Open Scope string_scope.
Open Scope list_scope.

Lemma after_same file_of text config f x : forall evs d, d f = Some x ->
  (forall ev d', In ev evs -> d' f = Some x -> disk_step file_of text config d' ev f = Some x) -> disk_after file_of text config d evs f = Some x.
Proof.
  induction evs as [|ev evs IH]; intros d D H; [exact D|]. cbn [disk_after fold_left]. apply IH; [apply H; [left; reflexivity|exact D]|].
  intros ev' d' I. apply H. right. exact I.
Qed.

Lemma original_stays file_of text config d G W P fuel ast r f a : by_name file_of -> supported G ->
  let evs := fst (generate G W P fuel ast r) in
  In (WroteOriginal f a) evs -> (forall g, rp_verify P = true -> temp_name (w_tmp W) (rp_file P) = Ok g -> file_of g <> file_of f) ->
  disk_after file_of text config d evs (file_of f) = Some (text ast).
Proof.
  intros N HG evs I T. pose proof (generate_known G W P fuel ast r) as K. fold evs in K. rewrite Forall_forall in K.
  destruct (K _ I) as (-> & O & Pn). destruct (based G W P ast (WroteOriginal f ast) f (K _ I) (or_introl eq_refl)) as (b & B).
  destruct (supported_ok G HG) as (_ & He).
  pose proof (original_name G P f b HG B Pn) as Nf.
  assert (S : forall ev d', In ev evs -> d' (file_of f) = Some (text ast) -> disk_step file_of text config d' ev (file_of f) = Some (text ast)).
  { intros ev d' Ie D. specialize (K ev Ie). destruct ev; cbn [disk_step known_file] in *; try exact D; unfold put.
    - destruct K as (V & K). destruct (String.eqb_spec (file_of f) (file_of tmp)) as [E|E]; [|exact D]. exfalso. symmetry in E. exact (T _ V K E).
    - destruct K as (k & K). destruct (String.eqb_spec (file_of f) (file_of file)) as [E|E]; [|exact D]. exfalso. revert E. apply N.
      rewrite Nf, (mutant_file_name G P file k b HG B K). intros E. injection E as E. exact (not_original b b _ _ _ k He He (continues_longer b) (eq_sym E)).
    - destruct K as (-> & _ & K). replace file with f by congruence. rewrite String.eqb_refl. reflexivity.
    - destruct K as (_ & K). destruct (String.eqb_spec (file_of f) (file_of file)) as [E|E]; [|exact D]. exfalso. revert E. apply N.
      rewrite Nf, (config_file P file b B K). intros E. injection E as E. apply (f_equal last_char) in E. rewrite config_last, (original_last G _ b HG B) in E.
      destruct (ext_last G HG); congruence. }
  apply in_split in I as (e1 & e2 & E). rewrite E in S |- *. rewrite after_app. cbn [disk_after fold_left].
  apply after_same; [cbn [disk_step]; unfold put; rewrite String.eqb_refl; reflexivity|]. intros ev d' Ie. apply S. apply in_or_app. right. right. exact Ie.
Qed.

(** ** A command with several inputs *)

Lemma lang_supported e l : supported (lang_files e l).
Proof. exists e. destruct l; [left|right]; reflexivity. Qed.

Definition run_of (e : env) (m : machine) (pcg : N -> rng) (W : gparams -> world) (fuel : nat) (g : gparams) (evs : list event) : Prop :=
  evs = [] \/ exists G ast, supported G /\ evs = fst (generate G (W g) (gp_run g) fuel ast (pcg (gp_rng g))).
Lemma run_one_of e m pcg W fuel g : run_of e m pcg W fuel g (fst (run_one e m pcg W fuel g)).
Proof.
  unfold run_one. destruct (recognize m (gp_prefs g) (rp_file (gp_run g))) as [[l t]| | |]; try (left; reflexivity).
  destruct (load_ast m l t (gp_prefs g) (rp_file (gp_run g))) as [ast| | |]; try (left; reflexivity).
  right. exists (lang_files e l), ast. split; [apply lang_supported|reflexivity].
Qed.

Lemma later_apart file_of e m pcg W fuel g gs f k G b : by_name file_of -> supported G ->
  file_name (rp_file (gp_run g)) = Some b -> mutant_name (gl_ext G) (rp_file (gp_run g)) (rp_outdir (gp_run g)) k = Ok f ->
  Forall (clear_of g) gs -> forall ev g', In ev (fst (run_each e m pcg W fuel gs)) -> In g' (touched_by ev) -> file_of g' <> file_of f.
Proof.
  intros N HG B M. induction gs as [|h gs IH]; intros C ev g' I Ig; [destruct I|]. inversion C as [|x y C1 C2]; subst x y. cbn [run_each] in I.
  assert (S : In ev (fst (run_one e m pcg W fuel h)) \/ In ev (fst (run_each e m pcg W fuel gs))).
  { destruct (run_one e m pcg W fuel h) as (ev1, [s| | |]); cbn [and_then fst] in I |- *; auto. destruct (run_each e m pcg W fuel gs) as (ev2, o). apply in_app_or in I. exact I. }
  destruct S as [S|S]; [|exact (IH C2 ev g' S Ig)].
  destruct (run_one_of e m pcg W fuel h) as [E|(G' & ast & HG' & E)]; [rewrite E in S; destruct S|]. rewrite E in S.
  pose proof (generate_known G' (W h) (gp_run h) fuel ast (pcg (gp_rng h))) as K. rewrite Forall_forall in K. specialize (K ev S).
  destruct (based _ _ _ _ _ _ K Ig) as (b' & B'). destruct (C1 b b' B B') as (D & Nc).
  apply not_eq_sym, N. eapply (mutant_apart G (gp_run g) f k b G' (W h) (gp_run h) ast); eauto.
Qed.

Lemma command_keeps file_of text config e m pcg W fuel : by_name file_of -> forall gs, ForallOrdPairs clear_of gs -> forall d f a mr,
  let evs := fst (run_each e m pcg W fuel gs) in
  In (WroteMutant f a mr) evs -> disk_after file_of text config d evs (file_of f) = Some (text a).
Proof.
  intros N. induction 1 as [|g gs C _ IH]; intros d f a mr; cbv zeta; [intros []|]. cbn [run_each].
  pose proof (run_one_of e m pcg W fuel g) as R. destruct (run_one e m pcg W fuel g) as (ev1, o1). cbn [fst] in R.
  assert (L : In (WroteMutant f a mr) ev1 -> disk_after file_of text config d ev1 (file_of f) = Some (text a)).
  { intros I. destruct R as [->|(G & ast & HG & ->)]; [destruct I|]. exact (run_keeps file_of text config N G (W g) (gp_run g) fuel ast _ d f a mr HG I). }
  destruct o1 as [s| | |]; cbn [and_then fst]; [|exact L ..].
  specialize (IH (disk_after file_of text config d ev1) f a mr). cbv zeta in IH. pose proof (later_apart file_of e m pcg W fuel g gs f) as LA.
  destruct (run_each e m pcg W fuel gs) as (ev2, o2). cbn [fst] in *. intros I. rewrite after_app.
  apply in_app_or in I as [I|I]; [|exact (IH I)].
  rewrite after_other; [exact (L I)|]. destruct R as [->|(G & ast & HG & ->)]; [destruct I|].
  pose proof (generate_known G (W g) (gp_run g) fuel ast (pcg (gp_rng g))) as K. rewrite Forall_forall in K. pose proof (K _ I) as Kf. destruct Kf as (k & Kf).
  destruct (based _ _ _ _ _ f (K _ I) (or_introl eq_refl)) as (b & B). exact (LA k G b N HG B Kf C).
Qed.
Lemma command_stays file_of text config d e m pcg W fuel now args gs f a mr : by_name file_of ->
  assemble m now args = Ok gs -> ForallOrdPairs clear_of gs ->
  let evs := fst (generate_mutants e m pcg W fuel now args) in
  In (WroteMutant f a mr) evs -> disk_after file_of text config d evs (file_of f) = Some (text a).
Proof. intros N A C. unfold generate_mutants. rewrite A. exact (command_keeps file_of text config e m pcg W fuel N gs C d f a mr). Qed.

(** ** Configurations *)

Lemma config_apart file_of G W P P' fuel ast r f b b' : by_name file_of -> supported G ->
  file_name (rp_file P') = Some b' -> config_name (rp_file P') (rp_outdir P') = Ok f ->
  file_name (rp_file P) = Some b -> b <> String.append (file_stem b') ".mgnx" -> (file_stem b <> file_stem b' \/ rp_save P = false) ->
  forall ev g, In ev (fst (generate G W P fuel ast r)) -> In g (touched_by ev) -> file_of g <> file_of f.
Proof.
  intros N HG B' C B Nb St ev g I Ig. pose proof (generate_known G W P fuel ast r) as K. rewrite Forall_forall in K. specialize (K ev I).
  apply N. rewrite (config_file P' f b' B' C). destruct (supported_ok G HG) as (_ & He). assert (Hne : gl_ext G <> "") by (destruct He as [-> | ->]; discriminate).
  destruct ev; cbn [touched_by In known_file] in *; try contradiction; destruct Ig as [<-|[]].
  - rewrite (temp_file W P tmp b B (proj2 K)). congruence.
  - destruct K as (k & K). rewrite (mutant_file_name G P file k b HG B K). intros E. injection E as E. apply (f_equal last_char) in E.
    rewrite numbered_last in E by exact Hne. rewrite config_last in E. destruct (ext_last G HG); congruence.
  - rewrite (original_name G P file b HG B (proj2 (proj2 K))). intros E. injection E as E. apply (f_equal last_char) in E.
    rewrite config_last, (original_last G _ b HG B) in E. destruct (ext_last G HG); congruence.
  - destruct K as (V & K). rewrite (config_file P file b B K). destruct St as [St|St]; [|congruence]. intros E. injection E as E. apply St.
    assert (A : forall x y, String.append x ".mgnx" = String.append y ".mgnx" -> x = y).
    { intros x y Q. change ".mgnx" with (String "." "mgnx") in Q. apply split_last_unique in Q as (Q & _); [exact Q|reflexivity|reflexivity]. }
    exact (A _ _ E).
Qed.

(** ** Mutants and events *)

Lemma wrote_mutant f a mr evs : In (WroteMutant f a mr) evs -> In (a, mr) (mutants evs).
Proof. intros I. apply in_flat_map. exists (WroteMutant f a mr). split; [exact I|left; reflexivity]. Qed.
Lemma wrote_two : forall evs f1 a1 mr1 f2 a2 mr2, In (WroteMutant f1 a1 mr1) evs -> In (WroteMutant f2 a2 mr2) evs -> f1 <> f2 ->
  exists j1 j2, nth_error (mutants evs) j1 = Some (a1, mr1) /\ nth_error (mutants evs) j2 = Some (a2, mr2) /\ j1 <> j2.
Proof.
  induction evs as [|ev evs IH]; intros f1 a1 mr1 f2 a2 mr2 I1 I2 D; [destruct I1|].
  assert (Sh : forall j x, nth_error (mutants evs) j = Some x -> nth_error (mutants (ev :: evs)) (length (mutant_of ev) + j) = Some x).
  { intros j x H. unfold mutants. cbn [flat_map]. rewrite nth_error_app2, Nat.add_comm, Nat.add_sub by lia. exact H. }
  destruct I1 as [->|I1], I2 as [E2|I2].
  - congruence.
  - destruct (In_nth_error _ _ (wrote_mutant _ _ _ _ I2)) as (j & Hj). exists 0, (1 + j). split; [reflexivity|]. split; [exact (Sh j _ Hj)|discriminate].
  - subst ev. destruct (In_nth_error _ _ (wrote_mutant _ _ _ _ I1)) as (j & Hj). exists (1 + j), 0. split; [exact (Sh j _ Hj)|]. split; [reflexivity|discriminate].
  - destruct (IH _ _ _ _ _ _ I1 I2 D) as (j1 & j2 & H1 & H2 & N). do 2 eexists. split; [exact (Sh _ _ H1)|]. split; [exact (Sh _ _ H2)|lia].
Qed.
