(** From requests that differ in one place to texts that do. *)
From Coq Require Import String Ascii List NArith ZArith Arith Bool Lia.
From Verif Require Import Base Json Printer SpecTree SpecPrinter SpecLiteral SpecVyText SpecLocal TextFacts LayoutFacts EmitFacts PrintFacts IdealFacts.
Import ListNotations.
Open Scope string_scope.
Open Scope list_scope.

Lemma split_parts : forall c s, Forall (fun x => (slen x <= slen s)%N) (split_on c s).
Proof.
  intros c s. induction s as [|a s IH]; [repeat constructor; cbn; lia|].
  cbn [split_on slen]. destruct (Ascii.eqb c a).
  - constructor; [cbn; lia|]. eapply Forall_impl; [|exact IH]. cbn beta. intros; lia.
  - destruct (split_on c s) as [|h t]; [repeat constructor; cbn [slen]; lia|].
    inversion IH; subst. constructor; [cbn [slen]; lia|].
    eapply Forall_impl; [|eassumption]. cbn beta. intros; lia.
Qed.

Lemma narrow_wide : forall p s, (slen s < p)%N -> narrow p s.
Proof. intros p s H. unfold narrow, lines. eapply Forall_impl; [|apply split_parts]. cbn beta. intros; lia. Qed.

Lemma text_ideal : forall ind l, simple_requests l -> text_of_requests ind l (ideal 4 ind l).
Proof.
  intros ind l (P & T). exists (slen (ideal 4 ind l) + 4 * (climb ind l + 2) + 1)%N. intros page oc row H.
  destruct (exec_ideal (Geo 4 page oc) l (PState row 1 ind) "" P T) as (st & E); cbn [p_ind p_col g_tab g_page].
  - unfold max_indent. cbn [g_tab g_page]. change (4 =? 0)%N with false. cbn iota.
    assert (climb ind l + 2 <= page / 4)%N by (apply N.div_le_lower_bound; lia). lia.
  - reflexivity.
  - reflexivity.
  - apply narrow_wide. cbn [String.append]. lia.
  - cbn [p_ind g_tab] in E. eauto.
Qed.

Lemma text_unique : forall ind l w w', text_of_requests ind l w -> text_of_requests ind l w' -> w = w'.
Proof.
  intros ind l w w' (a & A) (b & B). destruct (A (N.max a b) false 1%N) as (s & E); [lia|]. destruct (B (N.max a b) false 1%N) as (s' & E'); [lia|]. congruence.
Qed.

Fixpoint level (ind : N) (l : list cmd) : N :=
  match l with
  | [] => ind
  | Inc :: l => level (ind + 1) l
  | Dec :: l => level (ind - 1) l
  | _ :: l => level ind l
  end.

Lemma ideal_level : forall tab a b ind, ideal tab ind (a ++ b) = String.append (ideal tab ind a) (ideal tab (level ind a) b).
Proof.
  intros tab. induction a as [|c a IH]; intros b ind; [reflexivity|].
  destruct c; cbn [app ideal level]; rewrite IH, ?app_assoc_s; reflexivity.
Qed.

Lemma simple_app : forall a b, simple_requests (a ++ b) -> simple_requests a /\ simple_requests b.
Proof.
  unfold simple_requests, plain. intros a b (P & T). unfold tokens in T. rewrite flat_map_app in T.
  apply Forall_app in P, T. unfold tokens. tauto.
Qed.

Lemma changed_text : forall C (print : C -> json -> list cmd) x x' l l' t t',
  (forall c y, balanced (print c y)) -> changed_at print x x' l l' ->
  simple_requests l -> simple_requests l' -> text_of_requests 0 l t -> text_of_requests 0 l' t' ->
  differ_in_place print x x' t t'.
Proof.
  intros C print x x' l l' t t' B H S S' T T'. destruct H as [l|before c after].
  - left. eapply text_unique; eassumption.
  - right. rewrite (text_unique _ _ _ _ T (text_ideal 0 _ S)), (text_unique _ _ _ _ T' (text_ideal 0 _ S')).
    apply simple_app in S, S'. destruct S as (_ & S), S' as (_ & S'). apply simple_app in S, S'.
    exists (ideal 4 0 before), c, (level 0 before), (ideal 4 (level 0 before) (print c x)), (ideal 4 (level 0 before) (print c x')), (ideal 4 (level 0 before) after).
    split; [now apply text_ideal|]. split; [now apply text_ideal|].
    rewrite !(ideal_level 4 before), !ideal_app by apply B. now split.
Qed.
