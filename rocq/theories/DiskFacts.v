(** The files a run writes, and what is left in them. *)
From Coq Require Import String Ascii List Bool NArith Arith Lia.
From Verif Require Import Base Json Rng Permissions MutationType Traverse OpCommon Language Paths Generator
  SpecTree SpecMutation SpecGenerator SpecDisk GenLaws GenMore PathFacts TextFacts.
Import ListNotations.
Open Scope string_scope.
Open Scope list_scope.

(** ** Which files *)

Definition known_file (G : glang) (W : world) (P : run_params) (ast : json) (ev : event) : Prop :=
  match ev with
  | Validated tmp _ _ => rp_verify P = true /\ temp_name (w_tmp W) (rp_file P) = Ok tmp
  | WroteMutant f _ _ => exists k, mutant_name (gl_ext G) (rp_file P) (rp_outdir P) k = Ok f
  | WroteOriginal f a => a = ast /\ rp_original P = true /\ printed_name (gl_ext G) (rp_file P) (rp_outdir P) = Ok f
  | WroteConfig f => rp_save P = true /\ config_name (rp_file P) (rp_outdir P) = Ok f
  | _ => True
  end.

Lemma emit_known G W P ast a mr s : Forall (known_file G W P ast) (fst (emit G W P a mr s)).
Proof.
  unfold emit. destruct (rp_stdout P); [repeat constructor|].
  destruct (mutant_name (gl_ext G) (rp_file P) (rp_outdir P) (g_written s)) eqn:E; repeat constructor. exists (g_written s). exact E.
Qed.
Lemma validate_known G W P ast a s : Forall (known_file G W P ast) (fst (validate W P a s)).
Proof.
  unfold validate. destruct (rp_verify P) eqn:V; [|constructor].
  destruct (temp_name (w_tmp W) (rp_file P)) eqn:E; repeat constructor; assumption.
Qed.
Lemma attempt_known G W P ast0 ps ms pm fuel c ast t : forall k s, Forall (known_file G W P ast0) (fst (attempt G W P ps ms pm fuel c ast k t s)).
Proof.
  induction k as [|k IH]; intros s; [constructor|]. cbn [attempt]. destruct (ct_get t c); [|constructor].
  destruct (pick_index n (g_rng s)) as (i, r1). destruct (mutate_ast (gl_lang G) ps ms pm fuel ast t i r1) as [[[a mr] r2]| | |]; [|repeat constructor ..].
  set (s1 := {| g_rng := r2; g_seen := g_seen s; g_written := g_written s; g_prints := g_prints s; g_checks := g_checks s |}).
  destruct (seen_before mr (g_seen s)).
  - specialize (IH s1). destruct (attempt G W P ps ms pm fuel c ast k t s1) as (ev, out). constructor; [exact Logic.I|exact IH].
  - pose proof (validate_known G W P ast0 a s1) as V. destruct (validate W P a s1) as (ev1, [[|]| | |]); cbn [fst] in V |- *.
    + pose proof (emit_known G W P ast0 a mr s1) as E. destruct (emit G W P a mr s1) as (ev2, w). cbn [fst] in *.
      constructor; [exact Logic.I|]. apply Forall_app. split; assumption.
    + match goal with |- context [attempt G W P ps ms pm fuel c ast k t ?s2] => specialize (IH s2); destruct (attempt G W P ps ms pm fuel c ast k t s2) as (ev, out) end.
      constructor; [exact Logic.I|]. apply Forall_app. split; assumption.
    + constructor; [exact Logic.I|exact V].
    + constructor; [exact Logic.I|exact V].
    + constructor; [exact Logic.I|exact V].
Qed.
Lemma make_known G W P ast0 ps ms pm fuel c ast : forall todo s, Forall (known_file G W P ast0) (fst (make_mutants G W P ps ms pm fuel c ast todo s)).
Proof.
  induction todo as [|t todo IH]; intros s; [constructor|]. cbn [make_mutants].
  pose proof (attempt_known G W P ast0 ps ms pm fuel c ast t attempts_limit s) as A.
  destruct (attempt G W P ps ms pm fuel c ast attempts_limit t s) as (ev, [s'| | |]); [|exact A ..].
  specialize (IH s'). destruct (make_mutants G W P ps ms pm fuel c ast todo s') as (ev', out'). apply Forall_app. split; assumption.
Qed.
Lemma and_then_known {A B} (F : event -> Prop) (x : list event * res A) (k : A -> list event * res B) :
  Forall F (fst x) -> (forall a, Forall F (fst (k a))) -> Forall F (fst (and_then x k)).
Proof.
  destruct x as (ev, [a| | |]); cbn [and_then fst]; intros H K; [|exact H ..]. specialize (K a). destruct (k a) as (ev', out).
  apply Forall_app. split; assumption.
Qed.
Lemma generate_known G W P fuel ast r : Forall (known_file G W P ast) (fst (generate G W P fuel ast r)).
Proof.
  unfold generate. apply and_then_known; [constructor|]. intros c. apply and_then_known; [constructor|]. intros pm. destruct c as [|kv c]; [constructor|].
  apply and_then_known.
  { unfold print_original. destruct (rp_original P) eqn:O; [|constructor]. destruct (rp_stdout P); [repeat constructor|].
    destruct (printed_name (gl_ext G) (rp_file P) (rp_outdir P)) eqn:E; repeat constructor; assumption. }
  intros n. apply and_then_known.
  { unfold save_config. destruct (rp_save P) eqn:O; [|constructor].
    destruct (config_name (rp_file P) (rp_outdir P)) eqn:E; [|constructor ..]. destruct (rp_stdout P); repeat constructor; assumption. }
  intros u. apply and_then_known; [constructor|]. intros tr. apply make_known.
Qed.

(** ** Their names *)

Lemma split_end c a : a <> c -> forall s, last_char s = Some a -> exists l x, split_on c s = l ++ [x] /\ last_char x = Some a.
Proof.
  intros N. induction s as [|d s IH]; [discriminate|]. intros H. destruct s as [|d' s].
  - cbn in H. injection H as ->. exists [], (String a ""). split; [|reflexivity]. cbn. destruct (Ascii.eqb_spec c a); [congruence|reflexivity].
  - destruct (IH H) as (l & x & E & L). change (split_on c (String d (String d' s))) with
      (if Ascii.eqb c d then "" :: split_on c (String d' s) else match split_on c (String d' s) with [] => [String d ""] | w :: ws => String d w :: ws end).
    rewrite E. destruct (Ascii.eqb c d); [exists ("" :: l), x; auto|]. destruct l as [|w l].
    + exists [], (String d x). split; [reflexivity|]. cbn [last_char]. destruct x; [discriminate|exact L].
    + exists (String d w :: l), x. auto.
Qed.
Lemma name_end f a b : a <> "/"%char -> a <> "."%char -> last_char f = Some a -> file_name f = Some b -> last_char b = Some a.
Proof.
  intros N N' L F. destruct (split_end "/" a N f L) as (l & x & E & Lx).
  assert (X : exists m, components f = m ++ [x]).
  { unfold components. rewrite E. destruct l as [|w l]; cbn [app].
    - destruct x; [discriminate|]. exists []. reflexivity.
    - rewrite filter_app. cbn [filter]. destruct x as [|y x]; [discriminate|]. cbn [is_empty_str orb].
      destruct (String.eqb_spec (String y x) ".") as [Q|Q]; [rewrite Q in Lx; cbn in Lx; congruence|]. cbn [negb]. rewrite app_assoc. eauto. }
  destruct X as (m & X). unfold file_name in F. rewrite X, rev_app_distr in F. cbn [rev app] in F. destruct (_ || _)%bool; congruence.
Qed.

Definition ext_of (f base ext : string) : string := String.append base (if ends_with (String.append "." ext) f then "" else String.append "." ext).
Lemma proper_app base s : proper base -> str_contains "/" s = false -> (s = "" \/ 3 <= String.length s) -> proper (String.append base s).
Proof.
  intros (A & B & C & D) S [-> |L].
  - rewrite TextFacts.app_nil_r_s. repeat split; assumption.
  - assert (Hl : 3 <= String.length (String.append base s)) by (rewrite string_length_app; lia).
    split; [intros E; rewrite E in Hl; cbn in Hl; lia|]. split; [intros E; rewrite E in Hl; cbn in Hl; lia|]. split; [intros E; rewrite E in Hl; cbn in Hl; lia|].
    rewrite contains_app, D, S. reflexivity.
Qed.
Lemma original_name G P f base : supported G -> file_name (rp_file P) = Some base -> printed_name (gl_ext G) (rp_file P) (rp_outdir P) = Ok f ->
  file_name f = Some (ext_of (rp_file P) base (gl_ext G)).
Proof.
  intros HG B H. destruct (supported_ok G HG) as (_ & He). unfold printed_name in H. rewrite B in H. injection H as <-. fold (ext_of (rp_file P) base (gl_ext G)).
  apply file_name_join. unfold ext_of. apply proper_app; [eapply file_name_proper; eauto| |]; destruct (ends_with _ _); auto; destruct He as [-> | ->]; cbn; auto.
Qed.

Lemma stem_contains c s : str_contains c s = false -> str_contains c (file_stem s) = false.
Proof.
  unfold file_stem. intros H. destruct (before_last_dot s) as [p|] eqn:E; [|exact H]. revert p E H.
  induction s as [|d s IH]; intros p E H; [discriminate|]. cbn [before_last_dot str_contains] in *. destruct (Ascii.eqb c d) eqn:Q; [discriminate|].
  destruct (before_last_dot s) as [p'|].
  - injection E as <-. cbn [str_contains]. rewrite Q. exact (IH p' eq_refl H).
  - destruct (Ascii.eqb d "."); [|discriminate]. injection E as <-. reflexivity.
Qed.
Lemma config_file P f base : file_name (rp_file P) = Some base -> config_name (rp_file P) (rp_outdir P) = Ok f ->
  file_name f = Some (String.append (file_stem base) ".mgnx").
Proof.
  intros B H. unfold config_name in H. rewrite B in H. injection H as <-. apply file_name_join.
  assert (L : 3 <= String.length (String.append (file_stem base) ".mgnx")) by (rewrite string_length_app; cbn; lia).
  split; [intros E; rewrite E in L; cbn in L; lia|]. split; [intros E; rewrite E in L; cbn in L; lia|]. split; [intros E; rewrite E in L; cbn in L; lia|].
  rewrite contains_app. rewrite (stem_contains "/" base); [reflexivity|]. destruct (file_name_proper _ _ B) as (_ & _ & _ & D). exact D.
Qed.
Lemma temp_file W P f base : file_name (rp_file P) = Some base -> temp_name (w_tmp W) (rp_file P) = Ok f -> file_name f = Some base.
Proof. intros B H. unfold temp_name in H. rewrite B in H. injection H as <-. apply file_name_join. eapply file_name_proper; eauto. Qed.
Lemma mutant_file_name G P f k base : supported G -> file_name (rp_file P) = Some base -> mutant_name (gl_ext G) (rp_file P) (rp_outdir P) k = Ok f ->
  file_name f = Some (numbered base (gl_ext G) k).
Proof.
  intros HG B H. destruct (supported_ok G HG) as (_ & He). rewrite (mutant_name_eq _ _ _ _ _ He B) in H. injection H as <-.
  apply file_name_join, numbered_proper; [eapply file_name_proper; eauto|exact He].
Qed.

(** The ends of the names tell them apart. *)
Definition last_ext (G : glang) : option ascii := last_char (gl_ext G).
Lemma ext_last G : supported G -> last_char (gl_ext G) = Some "l"%char \/ last_char (gl_ext G) = Some "y"%char.
Proof. intros HG. destruct (supported_ok G HG) as (_ & [-> | ->]); auto. Qed.
Lemma numbered_last b ext k : ext <> "" -> last_char (numbered b ext k) = last_char ext.
Proof.
  intros N. unfold numbered. rewrite last_char_app by discriminate.
  change (String "_" (String.append (show_N (N.of_nat k)) (String "." ext))) with (String.append (String "_" (show_N (N.of_nat k))) (String "." ext)).
  rewrite last_char_app by discriminate. cbn [last_char]. destruct ext; [congruence|reflexivity].
Qed.
Lemma original_last G f base : supported G -> file_name f = Some base -> last_char (ext_of f base (gl_ext G)) = last_char (gl_ext G).
Proof.
  intros HG B. assert (Hne : gl_ext G <> "") by (destruct (supported_ok G HG) as (_ & [-> | ->]); discriminate).
  assert (D : last_char (String.append "." (gl_ext G)) = last_char (gl_ext G)) by (apply (last_char_app "."); exact Hne).
  unfold ext_of. destruct (ends_with _ f) eqn:E.
  - rewrite app_nil_r_s. apply ends_with_last in E; [|discriminate]. rewrite D in E.
    destruct (ext_last G HG) as [L|L]; rewrite L in E |- *; (eapply name_end; [| |exact E|exact B]; discriminate).
  - rewrite last_char_app by discriminate. exact D.
Qed.
Lemma config_last base : last_char (String.append (file_stem base) ".mgnx") = Some "x"%char.
Proof. rewrite last_char_app by discriminate. reflexivity. Qed.

(** Mutants and the original of two inputs. *)
Lemma original_either b' ext f : (ext_of f b' ext = b' \/ ext_of f b' ext = String.append b' (String "." ext)).
Proof. unfold ext_of. destruct (ends_with _ _); [left; apply app_nil_r_s|right; reflexivity]. Qed.
Lemma not_original b b' ext ext' f k : known_ext ext -> known_ext ext' -> ~ continues b b' -> numbered b ext k <> ext_of f b' ext'.
Proof.
  intros He He' N E. apply N. destruct (original_either b' ext' f) as [Q|Q]; rewrite Q in E.
  - exists (String.append (show_N (N.of_nat k)) (String "." ext)). symmetry. exact E.
  - unfold numbered in E. change (String "_" (String.append (show_N (N.of_nat k)) (String "." ext))) with (String.append (String "_" (show_N (N.of_nat k))) (String "." ext)) in E.
    rewrite <- append_assoc in E. assert (A : forall x, known_ext x -> str_contains "." x = false) by (intros x [-> | ->]; reflexivity).
    apply split_last_unique in E as (E & _); [|now apply A|now apply A]. exists (show_N (N.of_nat k)). symmetry. exact E.
Qed.
Lemma continues_longer b : ~ continues b b.
Proof. intros (s & E). apply (f_equal String.length) in E. rewrite string_length_app in E. cbn in E. lia. Qed.

(** ** What is left in them *)

Lemma based G W P ast ev g : known_file G W P ast ev -> In g (touched_by ev) -> exists base, file_name (rp_file P) = Some base.
Proof.
  destruct (file_name (rp_file P)) as [base|] eqn:B; [eauto|]. intros K I. exfalso.
  destruct ev; cbn [touched_by In known_file] in *; try contradiction.
  - unfold temp_name in K. rewrite B in K. destruct K. discriminate.
  - destruct K as (k & K). unfold mutant_name in K. rewrite B in K. discriminate.
  - unfold printed_name in K. rewrite B in K. destruct K as (_ & _ & K). discriminate.
  - unfold config_name in K. rewrite B in K. destruct K. discriminate.
Qed.
Lemma mutant_apart G P f k b G' W' P' ast' ev g b' : supported G -> supported G' ->
  file_name (rp_file P) = Some b -> mutant_name (gl_ext G) (rp_file P) (rp_outdir P) k = Ok f ->
  file_name (rp_file P') = Some b' -> known_file G' W' P' ast' ev -> In g (touched_by ev) ->
  ~ continues b b' -> b <> b' \/ mutant_file ev = [] -> file_name f <> file_name g.
Proof.
  intros HG HG' B M B' K I N D. destruct (supported_ok G HG) as (_ & He). destruct (supported_ok G' HG') as (_ & He').
  rewrite (mutant_file_name G P f k b HG B M). assert (Hne : gl_ext G <> "") by (destruct He as [-> | ->]; discriminate).
  destruct ev; cbn [touched_by In known_file mutant_file] in *; try contradiction; destruct I as [<-|[]].
  - rewrite (temp_file W' P' tmp b' B' (proj2 K)). intros E. injection E as E. apply N. unfold numbered in E. eexists. symmetry. exact E.
  - destruct K as (k' & K). rewrite (mutant_file_name G' P' file k' b' HG' B' K). destruct D as [D|D]; [|discriminate].
    intros E. injection E as E. apply numbered_inj in E as (E & _); [congruence|exact He|exact He'].
  - rewrite (original_name G' P' file b' HG' B' (proj2 (proj2 K))). intros E. injection E as E. exact (not_original _ _ _ _ _ _ He He' N E).
  - rewrite (config_file P' file b' B' (proj2 K)). intros E. injection E as E. apply (f_equal last_char) in E.
    rewrite numbered_last in E by exact Hne. rewrite config_last in E. destruct (ext_last G HG); congruence.
Qed.

Section Disk.
  Variable file_of : string -> string.
  Variable text : json -> string.
  Variable config : string.
  Notation step := (disk_step file_of text config).
  Notation after := (disk_after file_of text config).

  Lemma step_other d ev f : (forall g, In g (touched_by ev) -> file_of g <> f) -> step d ev f = d f.
  Proof.
    intros H. destruct ev; cbn [disk_step touched_by In] in *; try reflexivity; unfold put;
      (destruct (String.eqb_spec f (file_of tmp)) as [E|E] || destruct (String.eqb_spec f (file_of file)) as [E|E]); try reflexivity; subst f; exfalso; eapply H; eauto.
  Qed.
  Lemma after_other f : forall evs d, (forall ev g, In ev evs -> In g (touched_by ev) -> file_of g <> f) -> after d evs f = d f.
  Proof.
    induction evs as [|ev evs IH]; intros d H; [reflexivity|]. cbn [disk_after fold_left]. fold (after (step d ev) evs). rewrite IH by (intros; eapply H; eauto using in_cons).
    apply step_other. intros g. apply (H ev g). left. reflexivity.
  Qed.
  Lemma after_app a b d : after d (a ++ b) = after (after d a) b.
  Proof. apply fold_left_app. Qed.

  Hypothesis named : by_name file_of.

  Lemma nodup_later evs1 f a mr evs2 : NoDup (mutant_files (evs1 ++ WroteMutant f a mr :: evs2)) -> forall g a' mr', In (WroteMutant g a' mr') evs2 -> g <> f.
  Proof.
    unfold mutant_files. rewrite flat_map_app. cbn [flat_map mutant_file app]. intros H g a' mr' I ->. apply NoDup_remove_2 in H. apply H. apply in_or_app. right.
    apply in_flat_map. exists (WroteMutant f a' mr'). split; [exact I|left; reflexivity].
  Qed.

  Lemma run_keeps G W P fuel ast r d f a mr : supported G -> let evs := fst (generate G W P fuel ast r) in
    In (WroteMutant f a mr) evs -> after d evs (file_of f) = Some (text a).
  Proof.
    intros HG evs I. pose proof (generate_known G W P fuel ast r) as K. fold evs in K.
    destruct (file_names G W P fuel ast r HG) as (_ & _ & Nd). fold evs in Nd.
    apply in_split in I as (e1 & e2 & E). rewrite E in K, Nd |- *. rewrite after_app. cbn [disk_after fold_left]. fold (after (step (after d e1) (WroteMutant f a mr)) e2).
    rewrite after_other; [cbn [disk_step]; unfold put; rewrite String.eqb_refl; reflexivity|].
    apply Forall_app in K as (_ & K). inversion K as [|x y Kf K2]; subst x y. destruct Kf as (k & Kf).
    destruct (based G W P ast (WroteMutant f a mr) f (ex_intro _ k Kf) (or_introl eq_refl)) as (b & B).
    intros ev g Ie Ig. apply not_eq_sym, named. rewrite Forall_forall in K2. specialize (K2 ev Ie).
    destruct ev as [| | g' a' mr'| | | | |]; try (eapply (mutant_apart G P f k b G W P ast); eauto using continues_longer; fail).
    pose proof (nodup_later e1 f a mr e2 Nd g' a' mr' Ie) as D. cbn in Ig. destruct Ig as [<-|[]]. cbn in K2. destruct K2 as (k' & K2).
    destruct (supported_ok G HG) as (_ & He).
    rewrite (mutant_file_name G P f k b HG B Kf), (mutant_file_name G P g' k' b HG B K2). intros Q. injection Q as Q.
    apply numbered_inj in Q as (_ & _ & Q); [|exact He|exact He]. subst k'. congruence.
  Qed.

  (** Files that a run does not name. *)
  Lemma run_leaves G W P fuel ast r d f :
    (forall k g, mutant_name (gl_ext G) (rp_file P) (rp_outdir P) k = Ok g -> file_of g <> f) ->
    (forall g, rp_original P = true -> printed_name (gl_ext G) (rp_file P) (rp_outdir P) = Ok g -> file_of g <> f) ->
    (forall g, rp_save P = true -> config_name (rp_file P) (rp_outdir P) = Ok g -> file_of g <> f) ->
    (forall g, rp_verify P = true -> temp_name (w_tmp W) (rp_file P) = Ok g -> file_of g <> f) ->
    after d (fst (generate G W P fuel ast r)) f = d f.
  Proof.
    intros A B C D. apply after_other. intros ev g I Ig. pose proof (generate_known G W P fuel ast r) as K. rewrite Forall_forall in K. specialize (K ev I).
    destruct ev; cbn [touched_by In known_file] in *; try contradiction; destruct Ig as [<-|[]].
    - destruct K. now apply D.
    - destruct K as (k & K). exact (A k _ K).
    - destruct K as (_ & K1 & K2). now apply B.
    - destruct K. now apply C.
  Qed.
End Disk.
