(** Two mutants of a Vyper run with different operators. *)
From Coq Require Import String Ascii List NArith ZArith Bool Lia.
From Verif Require Import Base Json JsonFacts Rng Permissions MutationType Traverse OpCommon VyMutators Comments Language Paths Generator
  SpecTree SpecMutation SpecOps SpecTotal SpecAccept SpecReach SpecClaims SpecGenerator SpecRecord SpecLiteral SpecVyText SpecVyEdit SpecVyOnce
  TraverseFacts TraverseFacts2 TraverseFacts3 GenFacts SelFacts GenLaws OpOrder OpFacts VyFacts AcceptFacts RecordFacts RecordWays RecordClaims RecordSite LocalFacts
  SpecComments CommentFacts KeepVy VyEditFacts VyPlace VyNoteClaims VyEditClaims VyWords VyWordsText.
From Verif Require SolOnce.
Import ListNotations.
Open Scope string_scope.
Open Scope list_scope.

(** ** Objects *)

Lemma fields_ext : forall o o' : list (string * json), map fst o = map fst o' -> once (map fst o) = true -> (forall k, assoc k o = assoc k o') -> o = o'.
Proof.
  induction o as [|[k v] o IH]; intros [|[k' v'] o'] E O H; cbn [map fst] in E; try discriminate E; [reflexivity|]. injection E as <- E.
  cbn [map fst once] in O. apply andb_true_iff in O. destruct O as (O1 & O2).
  pose proof (H k) as Hk. cbn [assoc] in Hk. rewrite String.eqb_refl in Hk. injection Hk as <-. f_equal. apply (IH o' E O2).
  intros k'. specialize (H k'). cbn [assoc] in H. destruct (k' =?s k) eqn:Q; [|exact H]. apply String.eqb_eq in Q. subst k'.
  assert (N : forall q : list (string * json), map fst q = map fst o -> assoc k q = None).
  { intros q Eq. assert (J : ~ In k (map fst q)) by (rewrite Eq; intros J; now rewrite (In_smem _ _ J) in O1).
    clear - J. induction q as [|[k1 v1] q IHq]; [reflexivity|]. cbn [assoc map fst In] in *. destruct (k =?s k1) eqn:Q; [apply String.eqb_eq in Q; subst k1; tauto|]. apply IHq. tauto. }
  rewrite (N o eq_refl), (N o' (eq_sym E)). reflexivity.
Qed.

Lemma becomes_same : forall k v n a b, lean n = true -> field_becomes k v n a -> field_becomes k v n b -> a = b.
Proof.
  intros k v n a b L (o & o1 & -> & -> & K1 & _ & A1 & B1) (o' & o2 & Q & -> & K2 & _ & A2 & B2). injection Q as <-. f_equal.
  apply fields_ext; [congruence|rewrite K1; exact (lean_once _ L)|]. intros k'. destruct (string_dec k' k) as [->|N]; [congruence|]. now rewrite B1, B2.
Qed.

Definition place_of (k : string) (n : json) : nat := match n with JObj o => index_of k (map fst o) | _ => 0 end.

Lemma assoc_key : forall k (o : list (string * json)) v, assoc k o = Some v -> In k (map fst o).
Proof.
  intros k o v. induction o as [|[k1 v1] o IH]; intros H; [discriminate H|]. cbn [assoc map fst] in *. destruct (k =?s k1) eqn:E; [apply String.eqb_eq in E; now left|right; auto].
Qed.
Lemma set_value_keys : forall i w (o : list (string * json)), map fst (set_value i w o) = map fst o.
Proof. intros i w o. revert i. induction o as [|[k v] o IH]; intros [|i]; cbn [set_value map fst]; try reflexivity. now rewrite IH. Qed.

Lemma becomes_at : forall k v w n n', lean n = true -> fld n k v -> field_becomes k w n n' ->
  subtree [place_of k n] n = Some v /\ n' = set_subtree [place_of k n] w n.
Proof.
  intros k v w n n' L F (o & o' & -> & -> & Ks & _ & Gv & Go). cbn [place_of]. unfold fld in F. cbn [oget] in F.
  pose proof (index_nth k _ (assoc_key _ _ _ F)) as N. rewrite nth_error_map in N. destruct (nth_error o _) as [[k1 v1]|] eqn:E; [|discriminate N].
  cbn in N. injection N as ->. destruct (key_at o _ k v1 L E) as (A & B). assert (v1 = v) as -> by congruence.
  cbn [subtree set_subtree children]. rewrite nth_error_map, E. cbn [option_map snd]. split; [reflexivity|]. cbn [set_child]. f_equal.
  destruct (B w) as (B1 & B2). apply fields_ext.
  - now rewrite set_value_keys.
  - rewrite Ks. exact (lean_once _ L).
  - intros k'. destruct (string_dec k' k) as [->|Nk]; [congruence|]. now rewrite B2, Go.
Qed.

Lemma lean_down : forall p v x, subtree p v = Some x -> lean v = true -> without_objects x = false -> lean x = true.
Proof.
  induction p as [|i p IH]; intros v x S L A; cbn [subtree] in S; [now injection S as <-|]. destruct (nth_error (children v) i) as [c|] eqn:N; [|discriminate S].
  apply (IH c x S); [|exact A]. apply (slot_child v i c L N (objects_up p c x S A)).
Qed.

(** ** Operators *)

Definition class_of (t : mutation_type) : list string := match t with Generic g => match vy_class g with Some l => l | None => [] end | _ => [] end.

Lemma classes_apart : forall t t' w, In t operator_kinds -> In t' operator_kinds -> In w (class_of t) -> In w (class_of t') -> t = t'.
Proof.
  assert (C : forallb (fun t => forallb (fun t' => mt_eqb t t' || forallb (fun w => negb (smem w (class_of t'))) (class_of t)) operator_kinds) operator_kinds = true)
    by (vm_compute; reflexivity).
  intros t t' w H H' I I'. rewrite forallb_forall in C. specialize (C t H). rewrite forallb_forall in C. specialize (C t' H').
  apply orb_true_iff in C. destruct C as [C|C]; [now apply mt_eqb_eq|]. rewrite forallb_forall in C. specialize (C w I). now rewrite (In_smem _ _ I') in C.
Qed.

Lemma class_name : forall t w, In t operator_kinds -> In w (class_of t) -> smem w op_names = true /\ part_keys w = [].
Proof.
  intros t w H. assert (C : forallb (fun t => forallb (fun w => smem w op_names && match part_keys w with [] => true | _ => false end) (class_of t)) operator_kinds = true) by (vm_compute; reflexivity).
  intros I. rewrite forallb_forall in C. specialize (C t H). rewrite forallb_forall in C. specialize (C w I). apply andb_true_iff in C. destruct C as (C1 & C2).
  split; [exact C1|]. now destruct (part_keys w).
Qed.

Lemma named_words : forall t w v, In t operator_kinds -> In w (class_of t) -> is_a v w -> front v = [w] /\ parts v = [].
Proof.
  intros t w v H I A. destruct (class_name t w H I) as (C1 & C2). pose proof (is_a_type _ _ A) as T. unfold front. rewrite T. unfold label. rewrite C1. split; [reflexivity|].
  destruct v as [| | | | |o]; try discriminate A. cbn [type_of] in T. cbn [parts]. now rewrite T, C2.
Qed.

Lemma operator_made : forall e t m fuel n r d, In t operator_kinds -> vy_mutator_for e t = Some m -> mu_mutable m n = Ok true -> mu_mutate m fuel n r = Ok d -> lean n = true ->
  exists op op' old new, subtree [place_of "op" n] n = Some op /\ md_node d = set_subtree [place_of "op" n] op' n /\
    is_a op old /\ In old (class_of t) /\ In new (class_of t) /\ new <> old /\ field_becomes "ast_type" (JStr new) op op'.
Proof.
  intros e t m fuel n r d H Hm Hmu Hd L.
  assert (Q : exists ops, m = vy_binop e t ops /\ ops_class ops (class_of t)).
  { clear - H Hm. cbn in H. repeat (destruct H as [<-|H]); try (exact (False_ind _ H)); cbn [vy_mutator_for] in Hm; injection Hm as <-; eexists; (split; [reflexivity|]);
      apply class_by_cases; vm_compute; reflexivity. }
  destruct Q as (ops & -> & Cl). cbn [vy_binop mu_mutable mu_mutate] in *.
  destruct (vy_binop_fact e t ops _ fuel n r d Cl Hmu Hd) as (op & op' & old & new & _ & F & A & Io & In' & D & B & B').
  destruct (becomes_at "op" op op' n _ L F B') as (S & E). exists op, op', old, new. repeat split; assumption.
Qed.

Lemma operator_relabelled : forall t op op' old new, In t operator_kinds -> is_a op old -> In old (class_of t) -> In new (class_of t) -> new <> old ->
  field_becomes "ast_type" (JStr new) op op' -> relabelled op op' /\ jwords op' = [new] /\ without_objects op = false.
Proof.
  intros t op op' old new H A Io Iw D (o & o' & -> & -> & _ & _ & Gv & _). destruct (named_words t old _ H Io A) as (F & P).
  destruct (named_words t new (JObj o') H Iw Gv) as (F' & P'). split; [exists old, new; repeat split; congruence|]. split; [|reflexivity].
  rewrite jwords_parts, F', P'. reflexivity.
Qed.

(** ** Two mutants *)

Lemma comment_words_kept : forall ast c path, a_comment c -> jwords (insert_comment_by_path vy_id vy_member vy_insert ast c path) = jwords ast.
Proof.
  intros ast c path C.
  destruct (vy_comment_lemma ast c path) as [(outer & up & inner & p & n & q & lst & lst' & _ & S & _ & Hh & (l1 & x0 & l2 & El & -> & _) & Rp & Sq & _)|(E & _)]; [|now rewrite E].
  rewrite (replaced_at_unique _ _ _ _ _ Sq Rp). apply (same_words _ _ _ _ Sq); [reflexivity|reflexivity|]. subst lst. cbn [jwords].
  rewrite !map_app, !concat_app. cbn [map concat]. now rewrite (comment_words _ C).
Qed.

Lemma one_written : forall e W P fuel ast r, rearranges (w_order W) -> lean ast = true ->
  forall ast' mr t l', In (ast', mr) (mutants (fst (generate (vyper_files e) W P fuel ast r))) ->
  mr_type mr = Some t -> In t operator_kinds -> cprogram_node l' ast' ->
  exists m p n r0 d k op op' old new, vy_mutator_for e t = Some m /\
    nth_error (sel m (fst (allowed (permissions_for_functions (rp_functions P)) false ast))) k = Some (p, n) /\
    subtree p ast = Some n /\ mu_mutate m fuel n r0 = Ok d /\
    mr = {| mr_type := mr_type (md_result d); mr_index := Some k; mr_node := mr_node (md_result d); mr_hash := mr_hash (md_result d) |} /\
    subtree (p ++ [place_of "op" n]) ast = Some op /\ subtree [place_of "op" n] n = Some op /\ lean op = true /\
    md_node d = set_subtree [place_of "op" n] op' n /\ is_a op old /\ In old (class_of t) /\ In new (class_of t) /\ new <> old /\
    field_becomes "ast_type" (JStr new) op op' /\ pwords l' = jwords (set_subtree (p ++ [place_of "op" n]) op' ast).
Proof.
  intros e W P fuel ast r Ho L ast' mr t l' H Ht Iw C'.
  destruct (SolOnce.mutation_place (vyper_files e) W P fuel ast r (ex_intro _ e (or_intror eq_refl)) Ho ast' mr H)
    as (t1 & m & p & n & r0 & d & k & Ht1 & Hm & It & Sl & S & Hmu & Hd & Emr & Fin).
  assert (t1 = t) as -> by congruence.
  cbn [vyper_files gl_lang vyper l_mutator_for l_id l_member l_insert] in *.
  assert (On : without_objects n = false).
  { pose proof (proj1 (vy_accepts_iff e t m n Hm) Hmu) as Acc. destruct (accepted_target e t n Acc) as (ty & A & _). destruct n; try discriminate A. reflexivity. }
  pose proof (lean_down p ast n S L On) as Ln.
  destruct (operator_made e t m fuel n r0 d Iw Hm Hmu Hd Ln) as (op & op' & old & new & So & Ed & A & Io & In' & D & B).
  exists m, p, n, r0, d, k, op, op', old, new. split; [exact Hm|]. split; [exact Sl|]. split; [exact S|]. split; [exact Hd|]. split; [exact Emr|].
  assert (Sp : subtree (p ++ [place_of "op" n]) ast = Some op) by (rewrite TraverseFacts3.subtree_app, S; exact So).
  split; [exact Sp|]. split; [exact So|]. split; [apply (lean_down _ _ _ Sp L); apply (operator_relabelled t op op' old new); assumption|].
  split; [exact Ed|]. split; [exact A|]. split; [exact Io|]. split; [exact In'|]. split; [exact D|]. split; [exact B|].
  rewrite <- (set_subtree_app p [place_of "op" n] op' ast n S), <- Ed, <- (program_words _ _ C').
  destruct Fin as [->|(c & path & Hc & _ & ->)]; [reflexivity|]. apply comment_words_kept. destruct (vy_note e t m fuel n r0 d c Hm Hd Hc) as (text & ->). reflexivity.
Qed.

Lemma operators_once : forall e W P fuel ast r, rearranges (w_order W) -> lean ast = true ->
  forall j1 j2 ast1 mr1 t1 l1 ast2 mr2 t2 l2,
  let written := mutants (fst (generate (vyper_files e) W P fuel ast r)) in
  nth_error written j1 = Some (ast1, mr1) -> nth_error written j2 = Some (ast2, mr2) -> j1 <> j2 ->
  mr_type mr1 = Some t1 -> In t1 operator_kinds -> cprogram_node l1 ast1 ->
  mr_type mr2 = Some t2 -> In t2 operator_kinds -> cprogram_node l2 ast2 -> l1 <> l2.
Proof.
  intros e W P fuel ast r Ho L j1 j2 ast1 mr1 t1 l1 ast2 mr2 t2 l2 written N1 N2 D T1 I1 C1 T2 I2 C2 Q. subst l2.
  assert (Dm : mr1 <> mr2).
  { intros <-. apply D. pose proof (no_duplicates (vyper_files e) W P fuel ast r) as Nd. fold written in Nd. rewrite NoDup_nth_error in Nd. apply Nd.
    - rewrite map_length. apply nth_error_Some. congruence.
    - rewrite !nth_error_map, N1, N2. reflexivity. }
  destruct (one_written e W P fuel ast r Ho L ast1 mr1 t1 l1 (nth_error_In _ _ N1) T1 I1 C1)
    as (m1 & p1 & n1 & r1 & d1 & k1 & x1 & y1 & a1 & b1 & M1 & S1 & P1 & D1 & E1 & X1 & Z1 & Lx1 & F1 & A1 & O1 & V1 & Ne1 & B1 & W1).
  destruct (one_written e W P fuel ast r Ho L ast2 mr2 t2 l1 (nth_error_In _ _ N2) T2 I2 C2)
    as (m2 & p2 & n2 & r2 & d2 & k2 & x2 & y2 & a2 & b2 & M2 & S2 & P2 & D2 & E2 & X2 & Z2 & Lx2 & F2 & A2 & O2 & V2 & Ne2 & B2 & W2).
  destruct (operator_relabelled t1 x1 y1 a1 b1 I1 A1 O1 V1 Ne1 B1) as (R1 & J1 & Ob1). destruct (operator_relabelled t2 x2 y2 a2 b2 I2 A2 O2 V2 Ne2 B2) as (R2 & J2 & Ob2).
  rewrite W1 in W2. destruct (list_eq_dec Nat.eq_dec p1 p2) as [<-|Np].
  2:{ refine (two_places _ _ ast x1 x2 _ _ X1 X2 L Ob1 Ob2 R1 R2 _ W2). intros Q. apply app_inj_tail in Q. tauto. }
  rewrite P1 in P2. injection P2 as <-. rewrite X1 in X2. injection X2 as <-.
  assert (a1 = a2) as <- by (unfold is_a, fld in A1, A2; congruence). pose proof (classes_apart t1 t2 a1 I1 I2 O1 O2) as <-.
  rewrite M1 in M2. injection M2 as <-. assert (k1 = k2) as <-.
  { pose proof (SolOnce.sel_nodup (permissions_for_functions (rp_functions P)) m1 ast) as Nd. rewrite NoDup_nth_error in Nd. apply Nd.
    - rewrite map_length. apply nth_error_Some. congruence.
    - rewrite !nth_error_map, S1, S2. reflexivity. }
  assert (One : vy_one_way t1 n1).
  { clear - I1. cbn in I1. unfold vy_one_way. repeat (destruct I1 as [<-|I1]); try (exact (False_ind _ I1)); repeat split; discriminate. }
  assert (Dn : md_node d1 <> md_node d2).
  { intros Q. apply Dm. rewrite E1, E2. now rewrite (vy_ways e t1 m1 fuel n1 r1 d1 fuel r2 d2 One M1 D1 D2 Q). }
  destruct (same_place _ ast x1 y1 y2 X1 L Ob1) as (_ & Df).
  - rewrite J1, J2. reflexivity.
  - rewrite J1, J2. intros Q. injection Q as <-. apply Dn. rewrite F1, F2. now rewrite (becomes_same _ _ _ _ _ Lx1 B1 B2).
  - exact (Df W2).
Qed.
