(** The operators shown for an algorithm. *)
From Coq Require Import String Ascii List NArith ZArith Bool Lia Permutation.
From Verif Require Import Base Json MutationType Traverse OpCommon SolMutators VyMutators Printer SpecPrinter SpecOps SpecTotal SpecAccept
  AcceptFacts Samples Info SpecInfo InfoFacts.
Import ListNotations.
Open Scope list_scope.
Open Scope string_scope.

Lemma described_find t d : described t d -> find_description t descriptions = Ok d.
Proof.
  unfold described. intros H. destruct (find_described t) as (d' & E & _). rewrite E. f_equal.
  destruct t as [[]|[]]; vm_compute in E; injection E as <-; vm_compute in H;
    repeat (destruct H as [H|H]; [congruence|]); destruct H.
Qed.

Lemma sol_is_inj t t' n : is_sol t n -> is_sol t' n -> t = t'.
Proof. unfold is_sol, has_field. congruence. Qed.
Lemma vy_is_inj t t' n : is_vy t n -> is_vy t' n -> t = t'.
Proof. unfold is_vy, has_field. congruence. Qed.

Lemma sol_binary_op class n op : is_sol "BinaryOperation" n -> has_field n "operator" (JStr op) -> (sol_binary class n <-> In op class).
Proof.
  intros H1 H2. split.
  - intros (_ & op' & Hi & H). unfold has_field in *. congruence.
  - intros H. split; [exact H1|]. now exists op.
Qed.

Lemma sol_shown e t m d op n : sol_mutator_for e t = Some m -> described t d -> d_operators d <> [] -> sol_operation t op n ->
  (mu_mutable m n = Ok true <-> In op (d_operators d)).
Proof.
  intros Hm Hd Hne (Hop & Hk). rewrite (sol_accepts_iff e t m n Hm). apply described_find in Hd.
  destruct t as [[]|[]]; vm_compute in Hd; injection Hd as <-; cbn [d_operators] in *; try (exfalso; apply Hne; reflexivity);
    cbn [sol_accepts]; try (rewrite (sol_binary_op _ n op Hk Hop); cbn [In arithmetic logical bitwise bitshift comparison non_commutative]; tauto).
  destruct Hk as [Hk Hp]. split.
  - intros (_ & p & op' & H1 & H2 & H3). unfold has_field in *. assert (p = true) by congruence. subst p.
    assert (op' = op) by congruence. subst. exact H3.
  - intros H. split; [exact Hk|]. exists true, op. now repeat split.
Qed.

Definition negated : json := v_node "UnaryOp" 1 [("op", v_op 2 "USub"); ("operand", v_name 3 "x")].

Lemma vy_shown_refuted : exists e m d n o,
  vy_mutator_for e (Generic UnaryOp) = Some m /\ described (Generic UnaryOp) d /\
  is_vy "UnaryOp" n /\ has_field n "op" o /\ is_vy "USub" o /\ ~ In "-" (d_operators d) /\ mu_mutable m n = Ok true.
Proof.
  destruct (find_described (Generic UnaryOp)) as (d & E & Hd). vm_compute in E. injection E as <-.
  exists ex_env. eexists _, _, negated, _. split; [reflexivity|]. split; [exact Hd|]. split; [vm_compute; reflexivity|].
  split; [vm_compute; reflexivity|]. split; [vm_compute; reflexivity|]. split; [vm_compute; intuition discriminate|]. vm_compute. reflexivity.
Qed.

Lemma vy_shifts_refuted : exists d, described (Generic BitshiftBinaryOp) d /\ In "<<" (d_operators d) /\
  forall e m n, vy_mutator_for e (Generic BitshiftBinaryOp) = Some m -> mu_mutable m n <> Ok true.
Proof.
  destruct (find_described (Generic BitshiftBinaryOp)) as (d & E & Hd). vm_compute in E. injection E as <-.
  eexists. split; [exact Hd|]. split; [now left|]. intros e m n Hm H. apply (vy_accepts_iff e _ m n Hm) in H. exact H.
Qed.

Lemma vy_binary_op class ops n op :
  vy_operation op n -> (forall name, In (name, op) vy_symbols -> (In name class <-> In op ops)) -> (vy_binary class n <-> In op ops).
Proof.
  intros (Hk & o & name & Ho & Hn & Hi) K. split.
  - intros (_ & o' & t & H1 & H2 & H3). unfold has_field in *. assert (o' = o) by congruence. subst o'.
    assert (t = name) by (eapply vy_is_inj; eassumption). subst t. now apply (K name Hi).
  - intros H. split; [exact Hk|]. exists o, name. split; [exact Ho|]. split; [now apply K|exact Hn].
Qed.

Lemma vy_shown e t m d op n : vy_mutator_for e t = Some m -> described t d ->
  In t [Generic ArithmeticBinaryOp; Generic LogicalBinaryOp; Generic BitwiseBinaryOp; Generic ComparisonBinaryOp] -> vy_operation op n ->
  (mu_mutable m n = Ok true <-> In op (d_operators d)).
Proof.
  intros Hm Hd Ht Hop. rewrite (vy_accepts_iff e t m n Hm). apply described_find in Hd.
  destruct Ht as [<-|[<-|[<-|[<-|[]]]]]; vm_compute in Hd; injection Hd as <-; cbn [d_operators vy_accepts];
    (apply vy_binary_op; [exact Hop|]; intros name Hi; unfold vy_symbols in Hi; cbn [In] in Hi;
     repeat (destruct Hi as [Hi|Hi]; [injection Hi as <- <-; cbn; intuition discriminate|]); destruct Hi).
Qed.

Lemma list_fails keys : Permutation keys (map fst descriptions) ->
  exists cols, forall oc, ~ comes_to_an_end (display_list oc cols keys).
Proof. intros P. exists 39%N. intros oc (o & H). rewrite (list_overflows keys P oc) in H. discriminate. Qed.

Lemma algorithms_example : comes_to_an_end (algorithms true 80 (map fst descriptions) true false) /\
  ~ comes_to_an_end (algorithms true 30 (map fst descriptions) true false).
Proof.
  pose proof (Permutation_refl (map fst descriptions)) as P. split.
  - apply (list_wide true 80 _ P). discriminate.
  - intros H. apply (list_ends_iff 30 _ P) in H. vm_compute in H. apply H. reflexivity.
Qed.

(** ** The command *)

Lemma command_list oc cols keys describe o :
  Permutation keys (map fst descriptions) -> algorithms oc cols keys true describe = Ok o ->
  exists l es, alphabetical l /\ Forall2 short_entry l es /\ words o = concat es.
Proof. exact (list_words oc cols keys o). Qed.

Lemma command_describe oc cols keys o :
  Permutation keys (map fst descriptions) -> algorithms oc cols keys false true = Ok o ->
  exists l es, alphabetical l /\ Forall2 long_entry l es /\ strip o = fold_right String.append "" es.
Proof. exact (descriptions_strip oc cols keys o). Qed.

Lemma command_fails keys : Permutation keys (map fst descriptions) ->
  exists cols, forall oc describe, ~ comes_to_an_end (algorithms oc cols keys true describe).
Proof. intros P. destruct (list_fails keys P) as (cols & H). exists cols. intros oc describe. exact (H oc). Qed.

Lemma command_list_wide oc cols keys describe :
  Permutation keys (map fst descriptions) -> (40 <= cols)%N -> comes_to_an_end (algorithms oc cols keys true describe).
Proof. exact (list_wide oc cols keys). Qed.

Lemma command_describe_wide oc cols keys :
  Permutation keys (map fst descriptions) -> (43 <= cols)%N -> comes_to_an_end (algorithms oc cols keys false true).
Proof. exact (describe_wide oc cols keys). Qed.

Lemma command_list_iff cols keys describe : Permutation keys (map fst descriptions) ->
  (comes_to_an_end (algorithms true cols keys true describe) <-> (40 <= cols)%N).
Proof. exact (list_ends_iff cols keys). Qed.

Lemma command_describe_iff cols keys : Permutation keys (map fst descriptions) ->
  (comes_to_an_end (algorithms true cols keys false true) <-> (43 <= cols)%N \/ cols = 41%N).
Proof. exact (describe_ends_iff cols keys). Qed.
