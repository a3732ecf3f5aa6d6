(** Facts about recognizing and loading files and about the command line. *)
From Coq Require Import String Ascii List NArith ZArith Bool Lia.
From Verif Require Import Base Json JsonFacts Rng MutationType Permissions OpCommon Language Generator PermFacts Paths Prefs Config
  Compiler Cli SpecTree SpecOps SpecCli CliFacts CliClaims OpFacts SpecInput.
Import ListNotations.
Open Scope string_scope.
Open Scope list_scope.

Lemma is_ast_iff l j : is_ast l j = true <-> tree_of l j.
Proof.
  destruct l; cbn [is_ast tree_of].
  - unfold has_field. rewrite <- get_str_Some by reflexivity. destruct (get_str j "nodeType") as [s|]; [|split; discriminate].
    rewrite String.eqb_eq. split; congruence.
  - unfold has_field. rewrite !kget_plain by reflexivity.
    destruct (oget j "contract_name"); destruct (oget j "ast"); split; try discriminate; try (intros (? & ? & ? & ?); discriminate); eauto.
Qed.

Lemma is_ast_file_iff m l f : is_ast_file m l f = true <-> file_is m new_prefs f (l, FAst).
Proof.
  unfold is_ast_file. cbn. destruct (m_json m f) as [j|]; [|split; [discriminate|intros (? & ? & _); discriminate]].
  rewrite is_ast_iff. split; [eauto|]. intros (j' & E & T). injection E as ->. exact T.
Qed.

Lemma succeeds_iff m c args : succeeds m c args = true <-> m_exec m c args = Some true.
Proof. unfold succeeds. destruct (m_exec m c args) as [[]|]; split; congruence. Qed.

Lemma dot_text s t : after_last_dot s = Some t -> exists a, s = String.append a (String "." t).
Proof.
  revert t. induction s as [|c s IH]; intros t H; [discriminate|]. cbn in H.
  destruct (after_last_dot s) as [t'|].
  - injection H as ->. destruct (IH t eq_refl) as (a & ->). now exists (String c a).
  - destruct (Ascii.eqb c ".") eqn:E; [|discriminate]. injection H as ->. apply Ascii.eqb_eq in E. subst c. now exists "".
Qed.

Lemma extension_iff f : path_extension f = Some "mgnx" <-> named_config f.
Proof.
  unfold path_extension, named_config. destruct (file_name f) as [[|c s]|].
  - split; [discriminate|]. intros (st & N & E). injection E as E. destruct st; [contradiction|discriminate].
  - split.
    + intros H. destruct (dot_text _ _ H) as (a & ->). exists (String c a). split; [discriminate|reflexivity].
    + intros (st & N & E). destruct st as [|d a]; [contradiction|]. cbn in E. injection E as -> ->. apply after_last_dot_app.
  - split; [discriminate|]. intros (? & ? & ?). discriminate.
Qed.

Lemma named_dec f : named_config f \/ ~ named_config f.
Proof.
  rewrite <- extension_iff. destruct (path_extension f) as [s|]; [|right; discriminate].
  destruct (string_dec s "mgnx"); [left; congruence|right; congruence].
Qed.

Lemma language_iff s l : read_language s = Some l <-> language_named s l.
Proof.
  unfold read_language, language_named. destruct (s =?s "Solidity") eqn:A; [|destruct (s =?s "Vyper") eqn:B].
  - apply String.eqb_eq in A. subst s. split; [intros H; injection H as <-; auto|intros [[_ ->]|[H _]]; [reflexivity|discriminate]].
  - apply String.eqb_eq in B. subst s. split; [intros H; injection H as <-; auto|intros [[H _]|[_ ->]]; [discriminate|reflexivity]].
  - apply String.eqb_neq in A, B. split; [discriminate|intuition congruence].
Qed.

Lemma config_iff m p f l : recognize_config m f = Some l <-> file_is m p f (l, FConfig).
Proof.
  unfold recognize_config. cbn [file_is snd fst]. rewrite <- extension_iff.
  destruct (path_extension f) as [x|]; [|split; [discriminate|intros [H _]; discriminate]].
  destruct (x =?s "mgnx") eqn:X.
  - apply String.eqb_eq in X. subst x. destruct (m_json m f) as [j|].
    + destruct (get_str j "language") as [s|] eqn:G.
      * rewrite language_iff. apply get_str_Some in G; [|reflexivity].
        split; [eauto 8|]. intros (_ & j' & s' & E & G' & L). injection E as <-. unfold has_field in G'. congruence.
      * split; [discriminate|]. intros (_ & j' & s' & E & G' & L). injection E as <-. apply get_str_Some in G'; [congruence|reflexivity].
    + split; [discriminate|]. intros (_ & j' & s' & E & _). discriminate.
  - apply String.eqb_neq in X. split; [discriminate|]. intros [H _]. congruence.
Qed.

(** ** Sources *)

Lemma sol_source_ok m p f out : sol_is_source m p f = Ok out <-> translated m p f LSolidity out.
Proof.
  unfold sol_is_source. destruct (file_name f) as [base|] eqn:F.
  - destruct (succeeds m (solc p) _) eqn:S.
    + apply succeeds_iff in S. split.
      * intros H. injection H as <-. now apply (By_solc m p f base).
      * intros T. inversion T; subst. rewrite F in H. injection H as <-. reflexivity.
    + split; [discriminate|]. intros T. inversion T; subst. apply succeeds_iff in H0. congruence.
  - split; [discriminate|]. intros T. inversion T; congruence.
Qed.

Lemma pip_ok m p f out : vy_is_source_pip m p f = Ok out -> translated m p f LVyper out.
Proof.
  unfold vy_is_source_pip. destruct (file_name f) as [base|] eqn:F; [|discriminate]. cbv zeta.
  destruct (m_dash_o m (vyperc p)) as [[]|] eqn:D; [| |discriminate].
  - destruct (succeeds m _ _) eqn:S; [|discriminate]. apply succeeds_iff in S. intros H. injection H as <-. now apply By_vyper.
  - destruct (succeeds m _ _) eqn:S; [|discriminate]. apply succeeds_iff in S. destruct (m_create m _) eqn:C; [|discriminate].
    intros H. injection H as <-. now apply By_old_vyper.
Qed.

Lemma docker_ok m p f out : vy_is_source_docker m p f = Ok out -> translated m p f LVyper out.
Proof.
  unfold vy_is_source_docker. destruct (file_name f) as [base|] eqn:F; [|discriminate]. cbv zeta.
  destruct (succeeds m _ _) eqn:S; [|discriminate]. apply succeeds_iff in S. intros H. injection H as <-. now apply (By_docker m p f base).
Qed.

Lemma vyper_found m p f out : translated m p f LVyper out ->
  vy_is_source_pip m p f = Ok out \/ vy_is_source_docker m p f = Ok out.
Proof.
  intros T. inversion T; subst.
  - left. unfold vy_is_source_pip. rewrite H, H0. apply succeeds_iff in H1. cbv zeta. now rewrite H1.
  - left. unfold vy_is_source_pip. rewrite H, H0. apply succeeds_iff in H1. cbv zeta. now rewrite H1, H2.
  - right. unfold vy_is_source_docker. rewrite H. apply succeeds_iff in H0. cbv zeta. unfold docker_args. cbn in H0 |- *. now rewrite H0.
Qed.

Lemma named_runs m p f : file_name f <> None ->
  (forall s, vy_is_source_pip m p f <> Panic s) /\ vy_is_source_pip m p f <> Diverge /\
  (forall s, vy_is_source_docker m p f <> Panic s) /\ vy_is_source_docker m p f <> Diverge /\
  (forall s, sol_is_source m p f <> Panic s) /\ sol_is_source m p f <> Diverge.
Proof.
  intros F. unfold vy_is_source_pip, vy_is_source_docker, sol_is_source, does_not_compile.
  destruct (file_name f); [|contradiction]. cbv zeta.
  repeat apply conj; intros; repeat match goal with |- context [if ?b then _ else _] => destruct b | |- context [match ?x with Some _ => _ | None => _ end] => destruct x as [[]|] end; discriminate.
Qed.

Lemma source_iff m p f l : file_name f <> None ->
  exists b, is_source m l p f = Ok b /\ (b = true <-> file_is m p f (l, FSource)).
Proof.
  intros F. destruct (named_runs m p f F) as (P1 & P2 & D1 & D2 & S1 & S2). cbn [file_is snd fst]. destruct l; cbn [is_source].
  - pose proof (sol_source_ok m p f) as I. destruct (sol_is_source m p f) as [o|x|x|]; cbn [is_ok]; try congruence; eexists; (split; [reflexivity|]).
    + split; [|reflexivity]. intros _. exists o. now apply I.
    + split; [discriminate|]. intros (out & T). apply I in T. discriminate.
  - pose proof (pip_ok m p f) as A. pose proof (docker_ok m p f) as B. pose proof (vyper_found m p f) as C.
    destruct (vy_is_source_pip m p f) as [o|x|x|]; cbn [is_ok bind]; try congruence.
    + eexists; split; [reflexivity|]. split; [|reflexivity]. intros _. exists o. now apply A.
    + destruct (vy_is_source_docker m p f) as [o|y|y|]; cbn [is_ok]; try congruence; eexists; (split; [reflexivity|]).
      * split; [|reflexivity]. intros _. exists o. now apply B.
      * split; [discriminate|]. intros (out & T). destruct (C out T); discriminate.
Qed.

(** ** Recognizing *)

Fixpoint first_true {A} (l : list A) (bs : list bool) : option A :=
  match l, bs with
  | x :: l, b :: bs => if b then Some x else first_true l bs
  | _, _ => None
  end.

Lemma first_true_iff {A} (P : A -> Prop) l bs x : Forall2 (fun x b => b = true <-> P x) l bs ->
  (first_true l bs = Some x -> exists a b, l = a ++ x :: b /\ P x /\ forall y, In y a -> ~ P y) /\
  (first_true l bs = None -> forall y, In y l -> ~ P y).
Proof.
  induction 1 as [|y b l bs Hb _ IH]; [split; [discriminate|intros _ y []]|]. cbn [first_true]. destruct b.
  - split; [|discriminate]. intros E. injection E as <-. exists [], l. split; [reflexivity|]. split; [now apply Hb|intros ? []].
  - destruct IH as [I1 I2]. assert (Y : ~ P y) by (intros H; apply Hb in H; discriminate). split.
    + intros E. destruct (I1 E) as (a & c & -> & Px & H). exists (y :: a), c. split; [reflexivity|]. split; [exact Px|].
      intros z [<-|Hz]; [exact Y|now apply H].
    + intros E z [<-|Hz]; [exact Y|now apply I2].
Qed.

Lemma first_unique m p f x y : first_of m p f x -> first_of m p f y -> x = y.
Proof.
  intros (a & b & E & X & N) (c & d & E' & Y & N'). rewrite E in E'. clear E.
  revert c E' N'. induction a as [|u a IH]; intros [|v c] E' N'; cbn in E'; injection E' as E1 E2.
  - exact E1.
  - subst v. exfalso. exact (N' x (or_introl eq_refl) X).
  - subst u. exfalso. exact (N y (or_introl eq_refl) Y).
  - apply (IH (fun z H => N z (or_intror H)) c E2 (fun z H => N' z (or_intror H))).
Qed.

Lemma recognize_cases m p f : file_name f <> None ->
  (exists x, recognize m p f = Ok x /\ first_of m p f x) \/
  (exists e, recognize m p f = Err e /\ forall x, In x precedence -> ~ file_is m p f x).
Proof.
  intros F. unfold recognize.
  destruct (source_iff m p f LSolidity F) as (s & Es & Is). destruct (source_iff m p f LVyper F) as (v & Ev & Iv).
  rewrite Es, Ev. cbn [bind].
  assert (A : exists c1 c2, (c1 = true <-> file_is m p f (LSolidity, FConfig)) /\ (c2 = true <-> file_is m p f (LVyper, FConfig)) /\
            recognize_config m f = if c1 then Some LSolidity else if c2 then Some LVyper else None).
  { pose proof (config_iff m p f LSolidity) as C1. pose proof (config_iff m p f LVyper) as C2.
    destruct (recognize_config m f) as [[]|]; [exists true, false|exists false, true|exists false, false];
      (split; [|split]); try reflexivity; rewrite <- ?C1, <- ?C2; split; congruence. }
  destruct A as (c1 & c2 & I1 & I2 & ->).
  pose proof (is_ast_file_iff m LSolidity f) as A1. pose proof (is_ast_file_iff m LVyper f) as A2.
  set (bs := [c1; c2; s; v; is_ast_file m LSolidity f; is_ast_file m LVyper f]).
  assert (H : Forall2 (fun x b => b = true <-> file_is m p f x) precedence bs).
  { unfold bs, precedence. repeat (apply Forall2_cons; [assumption|]); apply Forall2_nil. }
  destruct (first_true precedence bs) as [x|] eqn:E.
  - left. exists x. split.
    + unfold bs in E. cbn in E. destruct c1, c2, s, v; cbn in *; try (now inversion E);
        destruct (is_ast_file m LSolidity f); try (now inversion E); destruct (is_ast_file m LVyper f); now inversion E.
    + apply (first_true_iff _ _ _ x H). exact E.
  - right. assert (N := proj2 (first_true_iff _ _ _ (LSolidity, FAst) H) E). exists "LanguageNotRecognized". split; [|exact N].
    unfold bs in E. cbn in E. destruct c1, c2, s, v; cbn in *; try discriminate;
        destruct (is_ast_file m LSolidity f); try discriminate; destruct (is_ast_file m LVyper f); try discriminate; reflexivity.
Qed.

Lemma recognize_iff m p f x : file_name f <> None -> (recognize m p f = Ok x <-> first_of m p f x).
Proof.
  intros F. destruct (recognize_cases m p f F) as [(y & E & Y)|(e & E & N)]; rewrite E.
  - split; [intros H; injection H as <-; exact Y|]. intros X. f_equal. exact (first_unique m p f y x Y X).
  - split; [discriminate|]. intros (a & b & P & X & _). exfalso. apply (N x); [|exact X]. rewrite P. apply in_app_iff. right. now left.
Qed.

Lemma unrecognized_iff m p f : file_name f <> None ->
  ((exists e, recognize m p f = Err e) <-> forall x, ~ file_is m p f x).
Proof.
  intros F. assert (All : forall x, In x precedence) by (intros [[] []]; cbn; tauto).
  destruct (recognize_cases m p f F) as [(y & E & Y)|(e & E & N)]; rewrite E.
  - split; [intros (? & ?); discriminate|]. intros H. destruct Y as (a & b & _ & Y & _). destruct (H y Y).
  - split; [|eauto]. intros _ x. apply N, All.
Qed.

Lemma nameless m p f : file_name f = None -> exists s, recognize m p f = Panic s.
Proof.
  intros F. unfold recognize, recognize_config, path_extension, is_source, sol_is_source. rewrite F. cbn. eauto.
Qed.

(** ** Loading *)

Lemma load_tree_iff m l f j : load_tree m l f = Ok j <-> m_json m f = Some j /\ tree_of l j.
Proof.
  unfold load_tree. destruct (m_json m f) as [i|]; [|split; [discriminate|intros [H _]; discriminate]].
  destruct (is_ast l i) eqn:E.
  - apply is_ast_iff in E. split; [intros H; injection H as <-; auto|intros [H _]; congruence].
  - split; [discriminate|]. intros [H T]. injection H as <-. apply is_ast_iff in T. congruence.
Qed.

Lemma load_source_ok m l p f j : load_ast m l FSource p f = Ok j ->
  exists out, translated m p f l out /\ m_json m out = Some j /\ tree_of l j.
Proof.
  cbn [load_ast]. destruct l; cbn [load_source].
  - destruct (sol_is_source m p f) as [out| | |] eqn:S; try discriminate. intros H. apply load_tree_iff in H.
    exists out. split; [now apply sol_source_ok|exact H].
  - destruct (vy_is_source_pip m p f) as [out| | |] eqn:S; try discriminate.
    + intros H. apply load_tree_iff in H. exists out. split; [now apply pip_ok|exact H].
    + destruct (vy_is_source_docker m p f) as [out| | |] eqn:D; try discriminate.
      intros H. apply load_tree_iff in H. exists out. split; [now apply docker_ok|exact H].
Qed.

Lemma load_ok m l t p f j : load_ast m l t p f = Ok j -> tree_of l j.
Proof.
  destruct t; intros H.
  - destruct (load_source_ok _ _ _ _ _ H) as (out & _ & _ & T). exact T.
  - now apply load_tree_iff in H.
  - discriminate.
Qed.

(** ** A command line without configurations *)

Lemma all_types t : In t all_mutation_types.
Proof. destruct t as [[]|[]]; cbn; tauto. Qed.

Lemma plain_files m now a gs : no_configs m a -> assemble m now a = Ok gs ->
  gs = map (plain_params a (requested_types a) (to_prefs (ma_settings a)) (initial_seed a now) (initial_seed a now)) (ma_files a).
Proof.
  unfold assemble. generalize (initial_seed a now) as s. intros s N. unfold no_configs in N. revert gs.
  induction (ma_files a) as [|f rest IH]; intros gs A; [injection A as <-; reflexivity|].
  cbn [assemble_from] in A. destruct (recognize m _ f) as [[l t]| | |] eqn:R; try discriminate. cbn [bind snd fst] in A.
  assert (T : t <> FConfig).
  { intros ->. apply recognize_conf in R. rewrite (N f) in R by (now left). discriminate. }
  destruct t; [| |contradiction];
    (destruct (assemble_from m a _ _ s s rest) as [more| | |] eqn:E; try discriminate; cbn [bind] in A; injection A as <-;
     cbn [map]; f_equal; apply (IH (fun f H => N f (or_intror H)) more eq_refl)).
Qed.

Lemma operator_names_show t : exists n, In (n, t) operator_names /\ show_mt t = n.
Proof. destruct t as [[]|[]]; eexists; (split; [|reflexivity]); cbn; tauto. Qed.
Lemma operator_names_only n t : In (n, t) operator_names -> n = show_mt t.
Proof. cbn. intros H. repeat (destruct H as [H|H]; [injection H as <- <-; reflexivity|]). destruct H. Qed.

Lemma requested_iff a t : In t (requested_types a) <->
  ma_all a = true \/ exists n, In (n, t) operator_names /\ In n (ma_mutation a).
Proof.
  unfold requested_types. destruct (ma_all a).
  - split; [auto|]. intros _. apply all_types.
  - rewrite read_mts_in. split.
    + intros H. right. destruct (operator_names_show t) as (n & I & <-). eauto.
    + intros [H|(n & I & H)]; [discriminate|]. apply operator_names_only in I. now subst.
Qed.
