(** The Vyper compiler in its container: C106. *)
From Coq Require Import String Ascii List Bool Lia Arith.
From Verif Require Import Base Json Paths JsonFacts PathFacts Prefs Config Compiler SpecDocker.
Import ListNotations.
Open Scope string_scope.
Open Scope list_scope.

Definition keep (c : string) : bool := negb ((c =?s "") || (c =?s ".")).

Lemma slash_prefix s : starts_with_slash s = prefix "/" s.
Proof. destruct s as [|c s]; [reflexivity|]. cbn [starts_with_slash prefix]. destruct (Ascii.ascii_dec "/" c) as [<-|N]; [now destruct s|]. now apply Ascii.eqb_neq, not_eq_sym. Qed.

Lemma split_concat : forall D, D <> [] -> (forall x, In x D -> str_contains "/" x = false) -> split_on "/" (String.concat "/" D) = D.
Proof.
  induction D as [|d D IH]; [congruence|]. intros _ H. destruct D as [|d' D].
  - cbn [String.concat]. apply split_on_none. apply H. now left.
  - change (String.concat "/" (d :: d' :: D)) with (String.append d (String "/" (String.concat "/" (d' :: D)))).
    rewrite split_on_sep, split_on_none by (apply H; now left). rewrite IH; [reflexivity|discriminate|]. intros x I. apply H. now right.
Qed.

Lemma filter_twice {A} (g : A -> bool) l : filter g (filter g l) = filter g l.
Proof. induction l as [|x l IH]; [reflexivity|]. cbn [filter]. destruct (g x) eqn:E; [|exact IH]. cbn [filter]. now rewrite E, IH. Qed.

Lemma keep_alt : forall c, negb (is_empty_str c || (c =?s ".")) = keep c.
Proof. intros [|c s]; reflexivity. Qed.

Lemma steps_components f : steps f = filter keep (components f).
Proof.
  unfold steps, components. destruct (split_on "/" f) as [|x l]; [reflexivity|].
  rewrite (filter_ext _ keep keep_alt), filter_app, filter_twice. fold keep. change (fun c => negb _) with keep. cbn [filter].
  destruct x as [|c x]; [reflexivity|]. cbn [is_empty_str filter]. now destruct (keep (String c x)).
Qed.

Lemma components_parts f x : In x (components f) -> x <> "" /\ str_contains "/" x = false.
Proof.
  unfold components. pose proof (split_on_pieces "/" f) as Hp. destruct (split_on "/" f) as [|y l]; [intros []|].
  intros Hx. apply in_app_or in Hx as [Hx|Hx].
  - destruct y as [|c y]; [destruct Hx|]. destruct Hx as [<-|[]]. split; [discriminate|]. apply Hp. now left.
  - apply filter_In in Hx as (Hi & Hx). split; [|apply Hp; now right]. destruct x; discriminate.
Qed.

(** The directories before the last name. *)
Definition dirs (f : string) : list string := rev (tl (rev (components f))).

Lemma named_dirs f base : file_name f = Some base -> components f = dirs f ++ [base].
Proof.
  unfold file_name, dirs. intros H. destruct (rev (components f)) as [|c l] eqn:E; [discriminate|].
  destruct ((c =?s ".") || (c =?s "..")); [discriminate|]. injection H as ->. cbn [tl].
  rewrite <- (rev_involutive (components f)), E. reflexivity.
Qed.

Lemma parent_dirs f : path_parent f = String.append (if prefix "/" f then "/" else "") (String.concat "/" (dirs f)).
Proof. unfold path_parent, dirs. now rewrite slash_prefix. Qed.

Lemma dirs_parts f base x : file_name f = Some base -> In x (dirs f) -> x <> "" /\ str_contains "/" x = false.
Proof. intros F I. apply (components_parts f). rewrite (named_dirs f base F). apply in_or_app. now left. Qed.

Lemma steps_parent f base : file_name f = Some base -> steps (path_parent f) = filter keep (dirs f).
Proof.
  intros F. rewrite parent_dirs. assert (E : steps (String.concat "/" (dirs f)) = filter keep (dirs f)).
  { destruct (dirs f) as [|d l] eqn:D; [reflexivity|]. unfold steps. rewrite split_concat; [reflexivity|discriminate|].
    intros x I. rewrite <- D in I. exact (proj2 (dirs_parts f base x F I)). }
  destruct (prefix "/" f); [|exact E]. cbn [String.append]. rewrite <- E. unfold steps. cbn [split_on]. reflexivity.
Qed.

Lemma steps_file f base : file_name f = Some base -> steps f = steps (path_parent f) ++ [base].
Proof.
  intros F. rewrite (steps_parent f base F), steps_components, (named_dirs f base F), filter_app. f_equal. cbn [filter].
  destruct (file_name_proper f base F) as (A & B & _). unfold keep. apply String.eqb_neq in A, B. rewrite A, B. reflexivity.
Qed.

Lemma prefix_char c s : prefix (String c "") s = match s with String d _ => Ascii.eqb c d | "" => false end.
Proof.
  destruct s as [|d s]; [reflexivity|]. cbn [prefix]. destruct (Ascii.ascii_dec c d) as [<-|N]; [rewrite Ascii.eqb_refl; now destruct s|].
  symmetry. now apply Ascii.eqb_neq.
Qed.

Lemma concat_head d l c s : d = String c s -> exists s', String.concat "/" (d :: l) = String c s'.
Proof. intros ->. destruct l as [|d' l]; [now exists s|]. cbn [String.concat String.append]. eauto. Qed.

Lemma parent_root f base : file_name f = Some base -> prefix "/" (path_parent f) = prefix "/" f.
Proof.
  intros F. rewrite parent_dirs. destruct (prefix "/" f) eqn:E; [cbn [String.append]; now rewrite prefix_char|]. cbn [String.append].
  destruct (dirs f) as [|d l] eqn:D; [reflexivity|].
  assert (I : In d (dirs f)) by (rewrite D; now left). destruct (dirs_parts f base d F I) as (A & B).
  destruct d as [|c d]; [congruence|]. destruct (concat_head _ l c d eq_refl) as (s' & ->). rewrite prefix_char.
  cbn [str_contains] in B. now destruct (Ascii.eqb "/" c).
Qed.

Lemma dot_dirs f base : file_name f = Some base -> prefix "/" f = false ->
  (prefix "./" f = true <-> exists l, dirs f = "." :: l).
Proof.
  intros F R. pose proof (named_dirs f base F) as C. destruct (file_name_proper f base F) as (Ab & Bb & _). unfold components in C. split.
  - intros P. destruct f as [|c [|c' f]]; try discriminate P; cbn [prefix] in P; destruct (Ascii.ascii_dec "." c) as [<-|]; try discriminate P.
    destruct (Ascii.ascii_dec "/" c') as [<-|]; [|discriminate P]. cbn [split_on] in C. change (Ascii.eqb "/" ".") with false in C. change (Ascii.eqb "/" "/") with true in C.
    cbv iota in C. cbn [is_empty_str app] in C. destruct (dirs _) as [|d l] eqn:D; cbn [app] in C.
    + injection C as Q _. congruence.
    + injection C as <- _. eauto.
  - intros (l & D). rewrite D in C. destruct f as [|c f]; [discriminate F|]. cbn [split_on] in C.
    rewrite prefix_char in R. rewrite R in C. destruct (split_on "/" f) as [|w ws] eqn:S; [exact (False_ind _ (split_on_nonempty _ _ S))|].
    cbn [is_empty_str app] in C. injection C as -> -> W.
    destruct f as [|c f]. { cbn [split_on] in S. injection S as <-. cbn [filter] in W. destruct l; discriminate. }
    cbn [split_on] in S. destruct (Ascii.eqb "/" c) eqn:Q.
    + apply Ascii.eqb_eq in Q. subst c. cbn. now destruct f.
    + destruct (split_on "/" f); discriminate.
Qed.

(** ** Which files the container sees *)

Lemma seen_exact f base : file_name f = Some base -> (seen (path_parent f) f = Some (place_of f) <-> in_view f).
Proof.
  intros F. pose proof (steps_file f base F) as S. unfold seen, place_of, in_view. rewrite (parent_root f base F). unfold place_of.
  destruct (prefix "/" f) eqn:R; cbn [orb].
  - split.
    + destruct (steps f) as [|top rest] eqn:E; [discriminate|]. destruct (top =?s "code") eqn:Q; [|discriminate]. apply String.eqb_eq in Q. subst top.
      intros H. injection H as H. rewrite S in H. apply app_inv_head in H. subst rest. exists base. now left.
    + intros (b & [H|(H & _)]); [|discriminate]. injection H as H. rewrite H in S |- *. rewrite String.eqb_refl.
      change ["code"; b] with (["code"] ++ [b]) in S. apply app_inj_tail in S. destruct S as (<- & _). reflexivity.
  - split.
    + destruct (prefix "." (path_parent f)) eqn:P; [|discriminate]. intros H. injection H as H. rewrite S in H at 2. apply app_inv_head in H.
      exists base. right. split; [now rewrite H|]. apply (dot_dirs f base F R). rewrite H in S.
      assert (E : steps (path_parent f) = []) by (destruct (steps (path_parent f)) as [|x [|y l]]; [reflexivity|discriminate|discriminate]).
      rewrite (steps_parent f base F) in E. destruct (dirs f) as [|d l] eqn:D.
      * rewrite parent_dirs, R, D in P. discriminate.
      * exists l. f_equal. cbn [filter] in E. destruct (keep d) eqn:K; [discriminate|]. unfold keep in K. apply negb_false_iff, orb_true_iff in K.
        destruct K as [K|K]; apply String.eqb_eq in K; [|exact K]. exfalso. apply (proj1 (dirs_parts f base d F ltac:(rewrite D; now left))). exact K.
    + intros (b & [H|(H & P)]); [discriminate|]. apply (dot_dirs f base F R) in P. destruct P as (l & D). injection H as H. rewrite H in S.
      assert (E : steps (path_parent f) = []) by (destruct (steps (path_parent f)) as [|x [|y l']]; [reflexivity|discriminate|discriminate]).
      rewrite E, H. rewrite parent_dirs, R, D. cbn [String.append]. destruct (concat_head "." l "." "" eq_refl) as (s' & ->). rewrite prefix_char. reflexivity.
Qed.

Lemma steps_of_tmp tmp name : steps (String.append tmp (String "/" name)) = steps tmp ++ steps name.
Proof. unfold steps. now rewrite split_on_sep, filter_app. Qed.

(** ** What the compilation reports *)

Lemma flags_shape p : vy_flags p = [] \/ exists root, vy_flags p = ["-p"; root].
Proof. unfold vy_flags. destruct (compiler_prefs p LVyper) as [c|]; [|now left]. destruct (get_pstring c "root-path") as [s|]; eauto. Qed.

Lemma container_answers m p f valid : has_container m valid -> only_container m p ->
  (vy_compiles m p f = true <-> exists x, seen (path_parent f) f = Some x /\ valid x).
Proof.
  intros H O. unfold vy_compiles, succeeds. specialize (O (vy_flags p ++ [f])). specialize (H (path_parent f) (vy_flags p) f (flags_shape p)).
  unfold docker_args. change (?a ++ [] ++ ?b) with (a ++ b). rewrite app_nil_r.
  destruct (m_exec m (vyperc p) (vy_flags p ++ [f])) as [[]|]; try congruence; rewrite <- H;
    (destruct (m_exec m "docker" _) as [[]|]; split; congruence).
Qed.

Lemma container_right m p f valid base : has_container m valid -> only_container m p -> file_name f = Some base -> in_view f ->
  (vy_compiles m p f = true <-> valid (place_of f)).
Proof.
  intros H O F V. rewrite (container_answers m p f valid H O). apply (seen_exact f base F) in V. rewrite V. split.
  - intros (x & Q & A). now injection Q as <-.
  - eauto.
Qed.

Lemma container_misses p f base : file_name f = Some base -> ~ in_view f ->
  exists valid, valid (place_of f) /\ forall m, has_container m valid -> only_container m p -> vy_compiles m p f = false.
Proof.
  intros F V. exists (fun x => x = place_of f). split; [reflexivity|]. intros m H O. destruct (vy_compiles m p f) eqn:E; [|reflexivity].
  apply (container_answers m p f _ H O) in E. destruct E as (x & Q & ->). now apply (seen_exact f base F) in Q.
Qed.

(** The tree is written to a file of the container's own. *)
Lemma tree_lost m p f out : vy_is_source_docker m p f = Ok out -> prefix "/" (m_tmp m) = true -> hd "" (steps (m_tmp m)) <> "code" -> steps (m_tmp m) <> [] ->
  seen (path_parent f) out = None.
Proof.
  unfold vy_is_source_docker. destruct (file_name f) as [base|]; [|discriminate]. cbv zeta. destruct (succeeds m _ _); [|discriminate].
  intros H R T N. injection H as <-. unfold seen. change (String.append "/" ?x) with (String "/" x).
  assert (R' : prefix "/" (String.append (m_tmp m) (String "/" (String.append base ".json"))) = true).
  { rewrite prefix_char in R |- *. destruct (m_tmp m) as [|c t]; [discriminate|]. exact R. }
  rewrite R'. destruct (_ || _); [|reflexivity]. rewrite steps_of_tmp. destruct (steps (m_tmp m)) as [|top rest]; [congruence|]. cbn [app hd] in *.
  apply String.eqb_neq in T. now rewrite T.
Qed.

Lemma tree_left m p f out base : vy_is_source_docker m p f = Ok out -> place_of f = (true, ["code"; base]) ->
  prefix "/" (m_tmp m) = true -> hd "" (steps (m_tmp m)) = "code" ->
  seen (path_parent f) out = Some (place_of out).
Proof.
  unfold vy_is_source_docker. destruct (file_name f) as [b|] eqn:F; [|discriminate]. cbv zeta. destruct (succeeds m _ _); [|discriminate].
  intros H V R T. injection H as <-. unfold seen. change (String.append "/" ?x) with (String "/" x).
  assert (R' : prefix "/" (String.append (m_tmp m) (String "/" (String.append b ".json"))) = true).
  { rewrite prefix_char in R |- *. destruct (m_tmp m) as [|c t]; [discriminate|]. exact R. }
  injection V as V1 V2. rewrite R', (parent_root f b F), V1. cbn [orb]. pose proof (steps_file f b F) as S. rewrite V2 in S.
  change ["code"; base] with (["code"] ++ [base]) in S. apply app_inj_tail in S. destruct S as (<- & _).
  unfold place_of. rewrite R', steps_of_tmp. destruct (steps (m_tmp m)) as [|top rest]; [discriminate|]. cbn [app hd] in *. subst top.
  now rewrite String.eqb_refl.
Qed.

(** ** A machine with the container *)

Definition place_eqb (x y : place) : bool :=
  Bool.eqb (fst x) (fst y) && (if list_eq_dec string_dec (snd x) (snd y) then true else false).
Lemma place_eqb_eq x y : place_eqb x y = true <-> x = y.
Proof.
  unfold place_eqb. destruct x as [a l], y as [b k]. cbn [fst snd]. rewrite andb_true_iff, Bool.eqb_true_iff. destruct (list_eq_dec string_dec l k); split; intros H.
  - destruct H. congruence.
  - injection H as -> ->. auto.
  - destruct H. discriminate.
  - congruence.
Qed.

Definition mounted (s : string) : string := substring 0 (String.length s - 6) s.
Lemma mounted_app h : mounted (String.append h ":/code") = h.
Proof.
  unfold mounted. rewrite string_length_app. change (String.length ":/code") with 6. replace (_ + 6 - 6) with (String.length h) by lia.
  induction h as [|c h IH]; [reflexivity|]. cbn [String.append String.length substring]. now rewrite IH.
Qed.

Definition container_exec (valid : place -> bool) (c : string) (args : list string) : option bool :=
  if c =?s "docker" then
    match args with
    | _ :: _ :: mount :: _ :: rest =>
        match seen (mounted mount) (last rest "") with Some x => Some (valid x) | None => Some false end
    | _ => Some false
    end
  else None.
Definition container_machine (valid : place -> bool) : machine :=
  {| m_exec := container_exec valid; m_dash_o := fun _ => None; m_json := fun _ => None; m_create := fun _ => false; m_tmp := "/tmp" |}.

Lemma container_machine_has valid : has_container (container_machine valid) (fun x => valid x = true).
Proof.
  intros h options f _. cbn [container_machine m_exec]. unfold container_exec. rewrite String.eqb_refl. cbn [app]. rewrite mounted_app, last_last.
  destruct (seen h f) as [x|]; split.
  - intros H. injection H as H. eauto.
  - intros (y & Q & H). injection Q as <-. now rewrite H.
  - discriminate.
  - intros (y & Q & _). discriminate.
Qed.

Lemma container_machine_only valid p : (vyperc p =?s "docker") = false -> only_container (container_machine valid) p.
Proof. intros H args. cbn [container_machine m_exec]. unfold container_exec. now rewrite H. Qed.
