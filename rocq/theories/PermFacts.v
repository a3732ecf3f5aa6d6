(** Proofs about permissions and mutation names (C40-C42). *)
From Coq Require Import String Ascii List Bool Arith Lia Sorted.
From Verif Require Import Base Json Permissions MutationType SpecPermissions.
Import ListNotations.
Open Scope string_scope.
Open Scope list_scope.

Lemma perm_matches_eq p q : perm_matches p q = true <-> p = q.
Proof. destruct p, q; simpl; split; congruence. Qed.

Definition fresh (s : string) : string := String "x"%char s.
Lemma fresh_neq s : fresh s <> s.
Proof. intros H. apply (f_equal String.length) in H. simpl in H. lia. Qed.

Lemma object_grants o o' (P : fact -> Prop) :
  (forall n p, exists f, P f /\ f_name f = n /\ f_perm f = p) ->
  (pobject_matches o o' = true <-> forall f, P f -> object_says o' f -> object_says o f).
Proof.
  intros HP. destruct o as [s p|p], o' as [s' p'|p']; simpl.
  - rewrite andb_true_iff, perm_matches_eq, String.eqb_eq. split.
    + intros (-> & ->) f _ H; exact H.
    + intros H. destruct (HP s' p') as (f & Hf & Hn & Hp). destruct (H f Hf (conj Hn Hp)). split; congruence.
  - split; [discriminate|]. intros H. destruct (HP (fresh s) p') as (f & Hf & Hn & Hp).
    destruct (H f Hf Hp) as (Hs & _). exfalso. apply (fresh_neq s). congruence.
  - rewrite perm_matches_eq. split.
    + intros -> f _ (_ & H). exact H.
    + intros H. destruct (HP s' p') as (f & Hf & Hn & Hp). specialize (H f Hf (conj Hn Hp)). congruence.
  - rewrite perm_matches_eq. split.
    + intros -> f _ H. exact H.
    + intros H. destruct (HP "" p') as (f & Hf & Hn & Hp). specialize (H f Hf Hp). congruence.
Qed.

Lemma scope_grants s s' v :
  pscope_matches s s' = true <-> forall f, f_verb f = v -> scope_says s' f -> scope_says s f.
Proof.
  assert (Hex : forall a n p, exists f, (f_verb f = v /\ f_aspect f = a) /\ f_name f = n /\ f_perm f = p).
  { intros a n p. exists {| f_verb := v; f_aspect := a; f_name := n; f_perm := p |}. simpl. auto. }
  assert (Hsame : forall a o o', (pobject_matches o o' = true <->
            forall f, f_verb f = v -> f_aspect f = a /\ object_says o' f -> f_aspect f = a /\ object_says o f)).
  { intros a o o'. rewrite (object_grants o o' (fun f => f_verb f = v /\ f_aspect f = a) (Hex a)). split.
    - intros H f Hv (Ha & Ho). split; [exact Ha|]. apply H; auto.
    - intros H f (Hv & Ha) Ho. exact (proj2 (H f Hv (conj Ha Ho))). }
  assert (Hobj : forall o a, exists f, f_verb f = v /\ f_aspect f = a /\ object_says o f /\ f_perm f = object_perm o).
  { intros [n p|p] a; [destruct (Hex a n p) as (f & (A & B) & C & D)|destruct (Hex a "" p) as (f & (A & B) & C & D)];
      exists f; simpl; auto. }
  assert (Hdiff : forall a b o o', a <> b ->
            ~ forall f, f_verb f = v -> f_aspect f = b /\ object_says o' f -> f_aspect f = a /\ object_says o f).
  { intros a b o o' Hab H. destruct (Hobj o' b) as (f & A & B & C & _).
    destruct (H f A (conj B C)) as (D & _). congruence. }
  assert (Hany : forall a o p', ~ forall f, f_verb f = v -> f_perm f = p' -> f_aspect f = a /\ object_says o f).
  { intros a o p' H. pose (a' := match a with OfType => OfName | _ => OfType end).
    destruct (Hex a' "" p') as (f & (A & B) & C & D). destruct (H f A D) as (E & _). subst a'. destruct a; congruence. }
  assert (Hwild : forall p a o, (perm_matches p (object_perm o) = true <->
            forall f, f_verb f = v -> f_aspect f = a /\ object_says o f -> f_perm f = p)).
  { intros p a o. rewrite perm_matches_eq. split.
    - intros -> f _ (_ & H). destruct o; simpl in *; tauto.
    - intros H. destruct (Hobj o a) as (f & A & B & C & D). specialize (H f A (conj B C)). congruence. }
  destruct s as [o|o|o|p], s' as [o'|o'|o'|p']; simpl;
    try apply Hsame;
    try (split; [discriminate|intros H; exfalso; revert H; solve [apply Hdiff; discriminate|apply Hany]]).
  - destruct o' as [s' p'|p']; [exact (Hwild p OfType (OValue s' p'))|exact (Hwild p OfType (OAny p'))].
  - destruct o' as [s' p'|p']; [exact (Hwild p OfName (OValue s' p'))|exact (Hwild p OfName (OAny p'))].
  - destruct o' as [s' p'|p']; [exact (Hwild p OfChildren (OValue s' p'))|exact (Hwild p OfChildren (OAny p'))].
  - rewrite perm_matches_eq. split; [intros -> f _ H; exact H|].
    intros H. destruct (Hex OfType "" p') as (f & (A & B) & C & D). specialize (H f A D). congruence.
Qed.

Lemma scope_inhabited s v : exists f, f_verb f = v /\ scope_says s f.
Proof.
  destruct s as [[n p|p]|[n p|p]|[n p|p]|p].
  - exists {| f_verb := v; f_aspect := OfType; f_name := n; f_perm := p |}. simpl. auto.
  - exists {| f_verb := v; f_aspect := OfType; f_name := ""; f_perm := p |}. simpl. auto.
  - exists {| f_verb := v; f_aspect := OfName; f_name := n; f_perm := p |}. simpl. auto.
  - exists {| f_verb := v; f_aspect := OfName; f_name := ""; f_perm := p |}. simpl. auto.
  - exists {| f_verb := v; f_aspect := OfChildren; f_name := n; f_perm := p |}. simpl. auto.
  - exists {| f_verb := v; f_aspect := OfChildren; f_name := ""; f_perm := p |}. simpl. auto.
  - exists {| f_verb := v; f_aspect := OfType; f_name := ""; f_perm := p |}. simpl. auto.
Qed.

Lemma matches_grants b a : paction_matches b a = true <-> grants b a.
Proof.
  destruct b as [s|s], a as [s'|s']; cbn [paction_matches]; unfold grants; cbn [action_says].
  - rewrite (scope_grants s s' ToMutate). split.
    + intros H f (A & B). split; auto.
    + intros H f A B. exact (proj2 (H f (conj A B))).
  - split; [discriminate|]. intros H. destruct (scope_inhabited s' ToVisit) as (f & A & B).
    destruct (H f (conj A B)). congruence.
  - split; [discriminate|]. intros H. destruct (scope_inhabited s' ToMutate) as (f & A & B).
    destruct (H f (conj A B)). congruence.
  - rewrite (scope_grants s s' ToVisit). split.
    + intros H f (A & B). split; auto.
    + intros H f A B. exact (proj2 (H f (conj A B))).
Qed.

Lemma have_spec ps a : have_permission ps a = true <-> exists b, In b ps /\ grants b a.
Proof.
  unfold have_permission. rewrite existsb_exists. setoid_rewrite matches_grants. reflexivity.
Qed.

(** ** Histories *)
Ltac cases := repeat match goal with
  | |- context [paction_eq_dec ?x ?y] => destruct (paction_eq_dec x y)
  | H : context [paction_eq_dec ?x ?y] |- _ => destruct (paction_eq_dec x y)
  end; subst; try congruence; try lia.

Lemma count_remove a b ps :
  count_occ paction_eq_dec (remove_permission ps b) a =
  if paction_eq_dec a b then pred (count_occ paction_eq_dec ps a) else count_occ paction_eq_dec ps a.
Proof.
  induction ps as [|c ps IH]; simpl; [cases|].
  destruct (paction_eq_dec c b) as [Hcb|Hcb]; simpl; [|rewrite IH]; cases.
Qed.

Lemma count_history a h : forall ps n, count_occ paction_eq_dec ps a = n ->
  count_occ paction_eq_dec (fold_left apply_change h ps) a = fold_left (copies_step a) h n.
Proof.
  induction h as [|c h IH]; intros ps n Hn; simpl; [exact Hn|]. apply IH. subst n.
  destruct c as [b|b|]; simpl.
  - unfold add_permission. rewrite count_occ_app. simpl.
    cases.
  - apply count_remove.
  - reflexivity.
Qed.

Lemma history_lemma h a :
  have_permission (fold_left apply_change h []) a = true <-> exists b, copies b h > 0 /\ grants b a.
Proof.
  rewrite have_spec. split; intros (b & Hb & Hg); exists b; split; auto.
  - unfold copies. rewrite <- (count_history b h [] 0 eq_refl). now apply count_occ_In.
  - apply (count_occ_In paction_eq_dec). rewrite (count_history b h [] 0 eq_refl). exact Hb.
Qed.

Lemma add_monotone ps a q : have_permission ps q = true -> have_permission (add_permission ps a) q = true.
Proof.
  rewrite !have_spec. intros (b & Hb & Hg). exists b. split; [|exact Hg]. apply in_or_app. now left.
Qed.

Lemma add_granted ps a q : grants a q -> have_permission (add_permission ps a) q = true.
Proof. rewrite have_spec. intros H. exists a. split; [|exact H]. apply in_or_app. right. now left. Qed.

Lemma remove_undoes_add ps a q :
  have_permission (remove_permission (add_permission ps a) a) q = have_permission ps q.
Proof.
  apply eq_true_iff_eq. rewrite !have_spec. split; intros (b & Hb & Hg); exists b; split; auto.
  - apply (count_occ_In paction_eq_dec) in Hb. apply (count_occ_In paction_eq_dec).
    rewrite count_remove in Hb. unfold add_permission in Hb. rewrite count_occ_app in Hb. simpl in Hb.
    cases.
  - apply (count_occ_In paction_eq_dec). apply (count_occ_In paction_eq_dec) in Hb.
    rewrite count_remove. unfold add_permission. rewrite count_occ_app. simpl.
    cases.
Qed.

(** ** Deny *)
Lemma says_perm a f : action_says a f -> f_perm f = action_perm a.
Proof. destruct a as [[[]|[]|[]|]|[[]|[]|[]|]]; simpl; tauto. Qed.

Lemma action_inhabited a : exists f, action_says a f.
Proof.
  destruct a as [s|s]; simpl; [destruct (scope_inhabited s ToMutate) as (f & H)|destruct (scope_inhabited s ToVisit) as (f & H)];
    now exists f.
Qed.

Lemma grants_perm b a : grants b a -> action_perm b = action_perm a.
Proof.
  intros H. destruct (action_inhabited a) as (f & Hf). rewrite <- (says_perm _ _ Hf).
  symmetry. apply says_perm, H, Hf.
Qed.

Lemma deny_ignored ps d q : action_perm d = Deny -> action_perm q = Allow ->
  have_permission (add_permission ps d) q = have_permission ps q.
Proof.
  intros Hd Hq. apply eq_true_iff_eq. rewrite !have_spec. split; intros (b & Hb & Hg); exists b; split; auto.
  - unfold add_permission in Hb. apply in_app_or in Hb as [Hb|[<-|[]]]; [exact Hb|].
    apply grants_perm in Hg. congruence.
  - apply in_or_app. now left.
Qed.

Lemma deny_only ps q : (forall b, In b ps -> action_perm b = Deny) -> action_perm q = Allow ->
  have_permission ps q = false.
Proof.
  intros H Hq. destruct (have_permission ps q) eqn:E; [|reflexivity].
  apply have_spec in E as (b & Hb & Hg). apply grants_perm in Hg. rewrite (H b Hb) in Hg. congruence.
Qed.

Lemma deny_refuted : exists ps f,
  have_permission (add_permission ps (PMutate (SName (OValue f Deny)))) (PMutate (SName (OValue f Allow))) = true.
Proof. exists [PMutate (SAny Allow)], "f". reflexivity. Qed.

(** ** Names *)
Lemma read_show m : read_mt (show_mt m) = Ok m.
Proof. destruct m as [[]|[]]; reflexivity. Qed.

Lemma show_read s m : read_mt s = Ok m -> show_mt m = s.
Proof.
  unfold read_mt. intros H.
  repeat (match type of H with
          | (if ?s =?s ?x then _ else _) = _ => destruct (String.eqb_spec s x) as [->|]
          end;
          [injection H as <-; reflexivity|]).
  discriminate.
Qed.

Lemma read_shown s m : read_mt s = Ok m <-> s = show_mt m.
Proof. split; [intros H; symmetry; now apply show_read|intros ->; apply read_show]. Qed.

Lemma read_mts_in m l : In m (read_mts l) <-> In (show_mt m) l.
Proof.
  unfold read_mts. rewrite in_flat_map. split.
  - intros (s & Hs & Hm). destruct (read_mt s) eqn:E; try destruct Hm as [|[]]; try contradiction.
    subst. apply show_read in E. now subst.
  - intros H. exists (show_mt m). split; [exact H|]. rewrite read_show. now left.
Qed.

Lemma read_mts_app l l' : read_mts (l ++ l') = read_mts l ++ read_mts l'.
Proof. unfold read_mts. apply flat_map_app. Qed.

(** The names are read in order, one by one, other strings being skipped. *)
Lemma read_mts_order l :
  map show_mt (read_mts l) = filter (fun s => existsb (fun m => show_mt m =?s s) all_mutation_types) l.
Proof.
  induction l as [|s l IH]; [reflexivity|]. change (s :: l) with ([s] ++ l) at 1.
  rewrite read_mts_app, map_app, IH. cbn [read_mts flat_map filter].
  destruct (existsb _ all_mutation_types) eqn:E.
  - apply existsb_exists in E as (m & _ & Hm). apply String.eqb_eq in Hm as <-. rewrite read_show. reflexivity.
  - destruct (read_mt s) as [m| | |] eqn:Er; try reflexivity. apply show_read in Er as <-. exfalso.
    assert (He : existsb (fun m' => show_mt m' =?s show_mt m) all_mutation_types = true).
    { apply existsb_exists. exists m. split; [|apply String.eqb_refl]. destruct m as [[]|[]]; simpl; tauto. }
    congruence.
Qed.

Lemma show_injective m m' : show_mt m = show_mt m' -> m = m'.
Proof. intros H. assert (E := read_show m). rewrite H, read_show in E. congruence. Qed.

Lemma all_types_complete :
  (forall m, In m all_mutation_types) /\
  StronglySorted (fun a b => str_ltb a b = true) (map show_mt all_mutation_types).
Proof.
  split; [intros [[]|[]]; simpl; tauto|]. cbn [map all_mutation_types show_mt].
  repeat (constructor; [|repeat (constructor; [reflexivity|]); constructor]). constructor.
Qed.
