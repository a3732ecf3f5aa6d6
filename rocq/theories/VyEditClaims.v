(** Every Vyper mutant is the program with one edit: lemmas for C91. *)
From Coq Require Import String Ascii List NArith ZArith Bool Lia.
From Verif Require Import Base Json JsonFacts Rng MutationType Traverse OpCommon VyMutators Comments Language Generator SpecTree SpecMutation SpecLiteral SpecOps SpecTotal SpecAccept SpecReach
  SpecPrinter Printer VyPrinter SpecVyText SpecVyRead SpecVyEdit SpecComments SpecGenerator
  TraverseFacts TraverseFacts3 OpWf AcceptFacts ReachVy LocalFacts CommentFacts GenMore KeepVy VyText VyPlace VyEditFacts VyNoteClaims.
Import ListNotations.
Open Scope string_scope.
Open Scope list_scope.

(** ** Edits *)

Lemma edited_mono : forall (R Q : thing -> thing -> Prop) t t', (forall u w, R u w -> Q u w) -> edited R t t' -> edited Q t t'.
Proof. intros R Q t t' S E. induction E as [t t' H|c c' t t' St E IH]; [now constructor; apply S|exact (ed_inside _ _ _ _ _ St IH)]. Qed.

Lemma step_same : forall c c' t t', step c c' t t' -> c = c' -> t = t'.
Proof.
  intros c c' t t' St E.
  assert (T : forall e e' u u', top_step e e' u u' -> e = e' -> u = u') by (intros e e' u u' [|a b] ->; reflexivity).
  destruct St; try injection E as ->; try reflexivity; try (match goal with H : top_step _ _ _ _ |- _ => rewrite (T _ _ _ _ H eq_refl); reflexivity end).
Qed.

Lemma edited_same : forall (R : thing -> thing -> Prop) t t', (forall u w, R u w -> u = w) -> edited R t t' -> t = t'.
Proof. intros R t t' S E. induction E as [t t' H|c c' t t' St E IH]; [now apply S|exact (step_same _ _ _ _ St IH)]. Qed.

Lemma chain_program : forall l0 t0' t t', chain (TP l0) t0' t t' -> t = TP l0.
Proof.
  intros l0 t0' t t' E. unfold chain in E. induction E as [t t' (H & _)|c c' t t' St E IH]; [exact H|].
  subst c. inversion St.
Qed.

(** ** The mutation *)

Lemma program_length : forall l n ns, cprogram_node l n -> uncommented n -> fld n "body" (JArr ns) -> length l = length ns.
Proof.
  intros l n ns (_ & _ & (nb & F & N)) U Fn. unfold fld in F, Fn. rewrite F in Fn. injection Fn as <-.
  exact (Forall2_len _ _ _ _ _ (no_comments _ _ _ _ N (uncommented_list _ _ _ U F))).
Qed.

Lemma uncommented_sub : forall p n m, uncommented n -> subtree p n = Some m -> uncommented m.
Proof. intros p n m U S q x Q. apply (U (p ++ q)). rewrite TraverseFacts3.subtree_app, S. exact Q. Qed.

Lemma mutation_edit : forall e t m p n ast ast1 fuel r d l,
  cprogram_node l ast -> Forall no_interface l -> lean ast = true -> uncommented ast -> wf ast -> 2 <= length l ->
  subtree p ast = Some n -> vy_crash_free t n -> vy_mutator_for e t = Some m -> mu_mutable m n = Ok true -> mu_mutate m fuel n r = Ok d ->
  small_ints (md_node d) -> replaced_at p (md_node d) ast ast1 ->
  exists l', one_edit t l l' /\ cprogram_node l' ast1 /\ Forall no_interface l'.
Proof.
  intros e t m p n ast ast1 fuel r d l C NI L U W L2 S Cf Hm Hmu Hd Sm Rp.
  pose proof (proj1 (vy_accepts_iff e t m n Hm) Hmu) as Acc. pose proof (accepted_target e t n Acc) as Tx.
  rewrite (replaced_at_unique _ _ _ _ _ S Rp).
  destruct (replaced_part l ast p n (md_node d) C NI L S Tx) as (t0 & H0 & H).
  destruct (vy_only e t m fuel n r d (wf_subtree _ _ _ W S) (complete t0 n H0) Cf Hm Hmu Hd) as (P & O & HP).
  destruct (outcome_edit e t n P (md_node d) t0 H0 Acc O HP (uncommented_sub _ _ _ U S) Sm) as (t0' & So & H1 & Ve).
  - intros l0 ->. destruct (replaced_part l ast p n n C NI L S Tx) as (t1 & K1 & K).
    pose proof H0 as ((A & _ & (nb & Fb & Nb)) & _). destruct (is_module t1 n K1 A) as (l1 & ->).
    destruct (K (TP l1) Logic.I K1) as (l2 & _ & _ & Ch). apply chain_program in Ch. injection Ch as <-.
    pose proof (uncommented_sub _ _ _ U S) as Un.
    rewrite (program_length l0 n nb (proj1 H0) Un Fb). rewrite <- (program_length l n nb (proj1 K1) Un Fb). exact L2.
  - destruct (H t0' So H1) as (l' & C' & NI' & Ch). exists l'. split; [|auto]. refine (edited_mono _ _ _ _ _ Ch). intros u w (-> & ->). exact Ve.
Qed.

(** ** The comment *)

Lemma insert_comment : forall A (R : A -> json -> Prop) l c a b, a_comment c -> with_comments R l (a ++ b) -> with_comments R l (a ++ c :: b).
Proof.
  intros A R l c a b C. revert l. induction a as [|n a IH]; intros l H; cbn [app] in *.
  - destruct l as [|y l]; cbn [with_comments] in *; [now constructor|]. destruct H as (cs & n & more & -> & H). exists (c :: cs), n, more. split; [reflexivity|].
    destruct H as (H1 & H2). split; [now constructor|exact H2].
  - destruct l as [|y l]; cbn [with_comments] in *.
    + inversion H; subst. constructor; [assumption|]. exact (IH [] H3).
    + destruct H as ([|c1 cs] & m & more & E & Cs & Ry & G); cbn [app] in E; injection E as -> E.
      * subst more. exists [], m, (a ++ c :: b). split; [reflexivity|]. split; [constructor|]. split; [exact Ry|]. now apply IH.
      * inversion Cs; subst. assert (W : with_comments R (y :: l) (a ++ b)) by (cbn [with_comments]; exists cs, m, more; auto).
        specialize (IH _ W). cbn [with_comments] in IH. destruct IH as (cs' & m' & more' & E' & Cs' & G'). exists (c1 :: cs'), m', more'. rewrite E'. split; [reflexivity|].
        split; [now constructor|exact G'].
Qed.

Lemma home_becomes : forall n i k v w, field_at n i k v -> fld n k v /\ fld (set_subtree [i] w n) k w /\ forall k', k' <> k -> oget (set_subtree [i] w n) k' = oget n k'.
Proof.
  intros n i k v w (o & -> & N & First). cbn [set_subtree subtree children]. rewrite nth_error_map, N. cbn [option_map snd set_child].
  destruct (nth_cut _ _ _ _ N) as (o1 & o2 & -> & Li). subst i. rewrite set_value_cut.
  assert (Q : forall v, assoc k (o1 ++ (k, v) :: o2) = Some v).
  { intros v0. clear N. assert (F : forall j w, j < length o1 -> nth_error o1 j <> Some (k, w)).
    { intros j w0 Lj. rewrite <- (nth_error_app1 o1 ((k, v) :: o2) Lj). now apply First. }
    clear First. induction o1 as [|[k1 v1] o1 IH]; cbn [app assoc]; [now rewrite String.eqb_refl|]. destruct (k =?s k1) eqn:E.
    - apply String.eqb_eq in E. subst k1. exfalso. exact (F 0 v1 ltac:(cbn; lia) eq_refl).
    - apply IH. intros j w0 Lj. exact (F (Datatypes.S j) w0 ltac:(cbn; lia)). }
  split; [apply Q|]. split; [apply Q|]. intros k' Nk. unfold oget. destruct (assoc_mid o1 o2 k v w k') as [E|(E & _)]; [now symmetry|contradiction].
Qed.

Lemma home_kept : forall id n q lst l1 c x0 l2 t0, vy_home id n q lst -> lst = l1 ++ x0 :: l2 -> a_comment c -> any t0 n ->
  any t0 (set_subtree q (JArr (l1 ++ c :: x0 :: l2)) n).
Proof.
  intros id n q lst l1 c x0 l2 t0 (ty & k & i & I & A & Fa & -> & _) -> C H.
  destruct (home_becomes n i k _ (JArr (l1 ++ c :: x0 :: l2)) Fa) as (F & F' & E). set (n' := set_subtree [i] (JArr (l1 ++ c :: x0 :: l2)) n) in *. clearbody n'. clear Fa.
  cbn in I. destruct I as [I|[I|[I|[I|[I|[]]]]]]; injection I as <- <-.
  - destruct (is_for t0 n H A) as (x & it & b & ->). destruct H as (_ & (va & Fa & Na) & (vb & Fb & Nb) & (nb & Fc & Nc)). unfold fld in F, Fc. rewrite F in Fc. injection Fc as <-.
    cbn [any csnode]. split; [moved|]. split; [exists va; split; [moved|assumption]|]. split; [exists vb; split; [moved|assumption]|]. eexists. split; [exact F'|]. now apply insert_comment.
  - destruct (is_function t0 n H A) as (decs & f & args & ret & b & ->). destruct H as (((_ & (dn & Fd & Nd) & Ff & Fa & Nr & Ms) & (nb & Fb & Nb)) & NI). unfold fld in F, Fb. rewrite F in Fb. injection Fb as <-.
    split; [|exact Logic.I]. split; [|eexists; split; [exact F'|now apply insert_comment]]. split; [moved|]. split; [exists dn; split; [moved|assumption]|]. split; [moved|]. split.
    + destruct Fa as (a & Fa & Rest). exists a. split; [moved|exact Rest].
    + split; [|moved]. destruct ret as [r|]; cbn [onode] in *; [|moved]. destruct Nr as (vr & Fr & Nr). exists vr. split; [moved|exact Nr].
  - destruct (is_module t0 n H A) as (l & ->). destruct H as ((_ & Ms & (nb & Fb & Nb)) & NI). unfold fld in F, Fb. rewrite F in Fb. injection Fb as <-.
    split; [|exact NI]. split; [moved|]. split; [moved|]. eexists. split; [exact F'|now apply insert_comment].
  - destruct (is_if t0 n H A) as (x & b & o & ->). destruct H as (_ & (va & Fa & Na) & (nb & Fc & Nc) & (no & Fo & No) & Z). unfold fld in F, Fc. rewrite F in Fc. injection Fc as <-.
    cbn [any csnode]. split; [moved|]. split; [exists va; split; [moved|assumption]|]. split; [eexists; split; [exact F'|now apply insert_comment]|].
    split; [exists no; split; [moved|assumption]|]. intros Q. specialize (Z Q). moved.
  - destruct (is_if t0 n H A) as (x & b & o & ->). destruct H as (_ & (va & Fa & Na) & (nb & Fc & Nc) & (no & Fo & No) & Z). pose proof F as F0. unfold fld in F, Fo. rewrite F in Fo. injection Fo as <-.
    cbn [any csnode]. split; [moved|]. split; [exists va; split; [moved|assumption]|]. split; [exists nb; split; [moved|assumption]|]. split; [eexists; split; [exact F'|now apply insert_comment]|].
    intros Q. specialize (Z Q). unfold fld in Z. rewrite F in Z. injection Z as Z. destruct l1; discriminate Z.
Qed.

Lemma home_target : forall id n q lst, vy_home id n q lst -> exists ty, is_a n ty /\ In ty targets.
Proof. intros id n q lst (ty & k & i & I & A & _). exists ty. split; [exact A|]. cbn in I. repeat (destruct I as [I|I]; [injection I as <- <-; cbn; tauto|]). destruct I. Qed.

Lemma comment_keeps : forall l ast c path, cprogram_node l ast -> Forall no_interface l -> a_comment c ->
  cprogram_node l (insert_comment_by_path vy_id vy_member vy_insert ast c path).
Proof.
  intros l ast c path Cp NI C.
  destruct (vy_comment_lemma ast c path) as [(outer & up & inner & p & n & q & lst & lst' & _ & S & _ & Hh & (l1 & x0 & l2 & El & -> & _) & Rp & Sq & _)|(E & _)]; [|now rewrite E].
  rewrite (replaced_at_unique _ _ _ _ _ Sq Rp). rewrite <- (set_subtree_app p q _ ast n S).
  set (x' := set_subtree q (JArr (l1 ++ c :: x0 :: l2)) n).
  destruct (program_placed n x' (home_target _ _ _ _ Hh) l ast _ (conj Cp NI) (hit_at n x' p ast S)) as [(_ & H)|(t0 & H0 & H)]; [apply H|].
  assert (So : sort t0 t0) by (destruct t0; exact Logic.I).
  destruct (H t0 So (home_kept _ _ _ _ _ _ _ _ t0 Hh El C H0)) as (t' & _ & H2 & Ch).
  assert (E : TP l = t') by (refine (edited_same _ _ _ _ Ch); intros u w (-> & ->); reflexivity). subst t'. apply H2.
Qed.

(** ** Integers *)

Lemma small_sub : forall p n m, small_ints n -> subtree p n = Some m -> small_ints m.
Proof. intros p n m U S q x Q. apply (U (p ++ q)). rewrite TraverseFacts3.subtree_app, S. exact Q. Qed.

Lemma flat_subtree : forall P j l, children j = [] -> subtree P j = Some (JArr l) -> j = JArr [].
Proof. intros [|i P] j l C H; cbn [subtree] in H; [injection H as ->; cbn [children] in C; now subst l|]. rewrite C in H. destruct i; discriminate H. Qed.

Lemma set_child_field : forall j i c w k v, nth_error (children j) i = Some c -> children v = [] -> v <> c ->
  (fld j k v -> fld (set_child i w j) k v).
Proof.
  intros j i c w k v N Cv Ne F. destruct j as [| | | |l|o]; try discriminate F. cbn [children] in N. rewrite nth_error_map in N.
  destruct (nth_error o i) as [[k1 v1]|] eqn:E; [|discriminate N]. cbn in N. injection N as ->.
  destruct (nth_cut _ _ _ _ E) as (o1 & o2 & -> & Li). subst i. cbn [set_child]. rewrite set_value_cut. unfold fld in *. cbn [oget] in *.
  destruct (assoc_mid o1 o2 k1 c w k) as [H|(-> & H & _)]; [now rewrite <- H|]. rewrite H in F. congruence.
Qed.

Lemma set_child_back : forall j i c w k v, nth_error (children j) i = Some c -> children v = [] -> v <> w ->
  (fld (set_child i w j) k v -> fld j k v).
Proof.
  intros j i c w k v N Cv Ne F. destruct j as [| | | |l|o]; try discriminate F. cbn [children] in N. rewrite nth_error_map in N.
  destruct (nth_error o i) as [[k1 v1]|] eqn:E; [|discriminate N]. cbn in N. injection N as ->.
  destruct (nth_cut _ _ _ _ E) as (o1 & o2 & -> & Li). subst i. cbn [set_child] in F. rewrite set_value_cut in F. unfold fld in *. cbn [oget] in *.
  destruct (assoc_mid o1 o2 k1 c w k) as [H|(-> & H & H')]; [now rewrite H|]. rewrite H' in F. congruence.
Qed.

Lemma jint_flat : forall z, children (jint z) = [] /\ forall l, jint z <> JArr l.
Proof. intros z. unfold jint. destruct (z <? 0)%Z; split; reflexivity || discriminate. Qed.

Lemma small_before : forall P l1 c l2 j, subtree P j = Some (JArr (l1 ++ l2)) -> small_ints (set_subtree P (JArr (l1 ++ c :: l2)) j) -> small_ints j.
Proof.
  induction P as [|i P IH]; intros l1 c l2 j S H; cbn [subtree set_subtree] in *.
  - injection S as ->. intros [|i r] n Q A; cbn [subtree] in Q; [injection Q as <-; discriminate A|]. cbn [children] in Q.
    destruct (nth_error (l1 ++ l2) i) as [x|] eqn:E; [|discriminate Q].
    destruct (Nat.lt_ge_cases i (length l1)) as [Li|Li].
    + apply (H (i :: r)); [|exact A]. cbn [subtree children]. rewrite nth_error_app1 by exact Li. rewrite nth_error_app1 in E by exact Li. now rewrite E.
    + apply (H (Datatypes.S i :: r)); [|exact A]. cbn [subtree children]. rewrite nth_error_app2 by lia. rewrite nth_error_app2 in E by exact Li.
      replace (Datatypes.S i - length l1) with (Datatypes.S (i - length l1)) by lia. cbn [nth_error]. now rewrite E.
  - destruct (nth_error (children j) i) as [k|] eqn:E; [|discriminate S]. set (w := set_subtree P (JArr (l1 ++ c :: l2)) k) in *.
    assert (Lj : i < length (children j)) by (apply nth_error_Some; congruence).
    assert (Sw : subtree P w = Some (JArr (l1 ++ c :: l2))) by (eapply subtree_set_subtree_same; eassumption).
    intros [|i' r] n Q A; cbn [subtree] in Q.
    + injection Q as <-. destruct (H [] (set_child i w j) eq_refl) as (z & F & Z).
      * unfold is_a in *. refine (set_child_field _ _ _ _ _ (JStr "Int") E eq_refl _ A). intros <-. pose proof (flat_subtree P (JStr "Int") _ eq_refl S) as B. discriminate B.
      * exists z. split; [|exact Z]. refine (set_child_back _ _ _ _ _ _ E (proj1 (jint_flat z)) _ F). intros Ew. rewrite <- Ew in Sw.
        pose proof (flat_subtree _ _ _ (proj1 (jint_flat z)) Sw) as B. exact (proj2 (jint_flat z) _ B).
    + destruct (Nat.eq_dec i' i) as [->|Ni].
      * rewrite E in Q. apply (IH l1 c l2 k S) with (p := r); [|exact Q|exact A].
        refine (small_sub [i] _ _ H _). cbn [subtree]. rewrite children_set_child, nth_error_replace_at_eq; [reflexivity|exact Lj].
      * apply (H (i' :: r)); [|exact A]. cbn [subtree]. rewrite children_set_child, nth_error_replace_at_neq; [exact Q|congruence].
Qed.

Lemma comment_small : forall ast c path, small_ints (insert_comment_by_path vy_id vy_member vy_insert ast c path) -> small_ints ast.
Proof.
  intros ast c path Sm.
  destruct (vy_comment_lemma ast c path) as [(outer & up & inner & p & n & q & lst & lst' & _ & S & _ & Hh & (l1 & x0 & l2 & El & -> & _) & Rp & Sq & _)|(E & _)]; [|now rewrite <- E].
  rewrite (replaced_at_unique _ _ _ _ _ Sq Rp) in Sm. subst lst. exact (small_before _ _ _ _ _ Sq Sm).
Qed.

(** ** Runs *)

Lemma mutants_edit : forall e W P fuel ast r l, rearranges (w_order W) ->
  cprogram_node l ast -> Forall no_interface l -> lean ast = true -> uncommented ast -> wf ast -> 2 <= length l ->
  (forall p n t, subtree p ast = Some n -> In t (rp_types P) -> vy_accepts e t n -> vy_crash_free t n) ->
  forall ast' mr, In (ast', mr) (mutants (fst (generate (vyper_files e) W P fuel ast r))) -> small_ints ast' ->
  exists t l', mr_type mr = Some t /\ In t (rp_types P) /\ one_edit t l l' /\ cprogram_node l' ast'.
Proof.
  intros e W P fuel ast r l Ho C NI L U Wf L2 Cf ast' mr H Sm.
  destruct (one_mutation_lemma (vyper_files e) W P fuel ast r (ex_intro _ e (or_intror eq_refl)) Ho ast' mr H)
    as (t & m & p & n & r0 & d & ast1 & Ht & It & Hm & S & Hmu & Hd & Rp & _ & Fin).
  cbn [vyper_files gl_lang vyper l_mutator_for l_id l_member l_insert] in *.
  assert (Sm1 : small_ints ast1) by (destruct Fin as [->|(c & path & _ & ->)]; [exact Sm|exact (comment_small _ _ _ Sm)]).
  assert (Sd : small_ints (md_node d)).
  { refine (small_sub p _ _ Sm1 _). rewrite (replaced_at_unique _ _ _ _ _ S Rp). eapply subtree_set_subtree_same. exact S. }
  destruct (mutation_edit e t m p n ast ast1 fuel r0 d l C NI L U Wf L2 S (Cf _ _ _ S It (proj1 (AcceptFacts.vy_accepts_iff e t m n Hm) Hmu)) Hm Hmu Hd Sd Rp) as (l' & E & C' & NI').
  exists t, l'. split; [exact Ht|]. split; [exact It|]. split; [exact E|].
  destruct Fin as [->|(c & path & Hc & ->)]; [exact C'|]. apply comment_keeps; [exact C'|exact NI'|].
  destruct (vy_note e t m fuel n r0 d c Hm Hd Hc) as (text & ->). reflexivity.
Qed.

Lemma mutants_read : forall e W P fuel ast r l, rearranges (w_order W) ->
  cprogram_node l ast -> Forall no_interface l -> lean ast = true -> uncommented ast -> wf ast -> 2 <= length l ->
  (forall p n t, subtree p ast = Some n -> In t (rp_types P) -> vy_accepts e t n -> vy_crash_free t n) ->
  forall ast' mr, In (ast', mr) (mutants (fst (generate (vyper_files e) W P fuel ast r))) -> small_ints ast' ->
  exists t l', mr_type mr = Some t /\ one_edit t l l' /\
    forall oc fl h text, Forall (easy_def h) l' -> (N.of_nat h <= 36)%N -> narrow 150 (program_text 4 l') -> forallb spelled_def l' = true ->
      vy_print oc fl ast' = Ok text -> reads text l'.
Proof.
  intros e W P fuel ast r l Ho C NI L U Wf L2 Cf ast' mr H Sm.
  destruct (mutants_edit e W P fuel ast r l Ho C NI L U Wf L2 Cf ast' mr H Sm) as (t & l' & Ht & _ & E & C').
  exists t, l'. split; [exact Ht|]. split; [exact E|]. intros oc fl h text Hh Lh Nw Sp Pr. exact (printed_notes oc fl l' ast' h text C' Hh Lh Nw Sp Pr).
Qed.
