(** Two mutants of a run with different words. *)
From Coq Require Import String Ascii List NArith ZArith Bool Lia.
From Verif Require Import Base Json JsonFacts Rng Permissions MutationType Traverse OpCommon SolMutators VyMutators Comments Language Paths Generator
  SpecTree SpecMutation SpecOps SpecTotal SpecAccept SpecReach SpecClaims SpecGenerator SpecRecord SpecLiteral SpecVyText SpecSolText SpecSolEdit SpecSolOnce
  TraverseFacts TraverseFacts2 TraverseFacts3 GenFacts SelFacts GenLaws OpOrder OpFacts SolFacts AcceptFacts RecordFacts RecordWays RecordClaims RecordSite LocalFacts
  SpecComments KeepSol SolEditFacts SolPlace SolStrip SolMade SolEditClaims SolWords SolWordsText.
Import ListNotations.
Open Scope string_scope.
Open Scope list_scope.

(** ** Where the mutants of a run were made *)

Lemma mutation_place : forall G W P fuel ast r, supported G -> rearranges (w_order W) ->
  forall ast' mr, In (ast', mr) (mutants (fst (generate G W P fuel ast r))) ->
  exists t m p n r0 d i,
    mr_type mr = Some t /\ l_mutator_for (gl_lang G) t = Some m /\ In t (rp_types P) /\
    nth_error (sel m (fst (allowed (permissions_for_functions (rp_functions P)) false ast))) i = Some (p, n) /\
    subtree p ast = Some n /\ mu_mutable m n = Ok true /\ mu_mutate m fuel n r0 = Ok d /\
    mr = {| mr_type := mr_type (md_result d); mr_index := Some i; mr_node := mr_node (md_result d); mr_hash := mr_hash (md_result d) |} /\
    (ast' = set_subtree p (md_node d) ast \/ exists comment path, md_comment d = Some comment /\ (forall i, mr_node mr = Some i -> last path 0%N = i) /\
       ast' = insert_comment_by_path (l_id (gl_lang G)) (l_member (gl_lang G)) (l_insert (gl_lang G)) (set_subtree p (md_node d) ast) comment path).
Proof.
  intros G W P fuel ast r HG Ho ast' mr. destruct (supported_ok G HG) as ((HL1 & HL2) & _). destruct (generate G W P fuel ast r) as (evs, out) eqn:E. cbn [fst].
  apply generate_split in E as [((-> & _) & _)|(c & pm & head & prints & ts & r1 & body & done & Hc & _ & Hpm & -> & (Hh & _) & Hs & Hb)].
  { intros []. }
  rewrite mutants_app, Hh, (batch_mutants _ _ _ _ _ _ _ _ _ _ _ _ _ _ Hb). cbn [app]. intros Hi.
  apply in_map_iff in Hi as ((t & x) & Ex & Hi). cbn [snd] in Ex. subst x.
  pose proof (batch_made _ _ _ _ _ _ _ _ _ _ _ _ _ _ Hb) as Hm. rewrite Forall_forall in Hm. specialize (Hm _ Hi).
  cbn [fst snd] in Hm. destruct (made_label _ _ _ _ _ _ _ _ _ HG Ho Hc Hm) as (El & _). cbn [snd] in El.
  destruct Hm as (i & n & r0 & r' & _ & _ & Hm). cbn [fst snd] in Hm. unfold mutate_ast in Hm.
  set (ps := permissions_for_functions _) in *.
  destruct (mm_get t _) as [m|] eqn:Eg; [|discriminate].
  assert (Hnd : NoDup (map fst (w_order W (select_mutators (gl_lang G) (rp_types P) [])))) by now apply reordered_nodup.
  pose proof (counted_classified _ _ _ _ _ _ Hc Hnd Eg) as Ht.
  rewrite reordered_get, select_get in Eg by first [assumption|apply (supported_ok G HG)].
  destruct (existsb (mt_eqb t) (rp_types P)) eqn:Ex; [|discriminate].
  apply existsb_exists in Ex as (t' & Ht' & Et). apply mt_eqb_eq in Et. subst t'.
  cbn [mm_get] in Eg. destruct (l_mutator_for (gl_lang G) t) as [m'|] eqn:El'; [|discriminate]. injection Eg as ->.
  pose proof (make_mutation_select ps (l_id (gl_lang G)) m fuel i ast r0 Ht) as Sel.
  destruct (make_mutation ps _ m fuel i ast r0) as [[ast1 s]| | |] eqn:Em; try discriminate. cbn [bind] in Hm.
  destruct (nth_error (sel m (fst (allowed ps false ast))) i) as [[p nd]|] eqn:En.
  2:{ destruct Sel as (s' & Q & (B1 & B2 & B3 & B4 & B5)). injection Q as <- <-. injection Hm as _ Hmr _. cbn in B1, B2, B3, B4, B5. rewrite ?B1, ?B2, ?B3, ?B4, ?B5 in Hmr. cbn in Hmr. subst mr. discriminate El. }
  destruct (mu_mutate m fuel nd r0) as [d| | |] eqn:Ed; try discriminate Sel.
  destruct Sel as (s' & Q & (A1 & A2 & A3 & A4 & A5)). injection Q as -> <-.
  pose proof (nth_error_In _ _ En) as Hin. unfold sel in Hin. apply filter_In in Hin. destruct Hin as (Hin & Ha). cbn [snd] in Ha.
  exists t, m, p, nd, r0, d, i. split; [exact El|]. split; [exact El'|]. split; [exact Ht'|]. split; [exact En|].
  split; [eapply allowed_subtree; exact Hin|]. split; [unfold accepts in Ha; destruct (mu_mutable m nd) as [[]| | |]; congruence|]. split; [exact Ed|].
  unfold after_mutation in *. cbn in A1, A2, A3, A4, A5. injection Hm as Hast Hmr _. rewrite A3 in Hmr. split; [now subst mr|].
  rewrite A2 in Hast. destruct (md_comment d) as [cm|]; [|left; congruence].
  destruct (pm_get (mk_node_id s) pm) as [q|] eqn:Eq; [right; exists cm, q; split; [reflexivity|split; [|congruence]]|left; congruence].
  intros i0 Hi0. rewrite <- Hmr in Hi0. cbn [mr_node] in Hi0.
  destruct (paths_sound _ _ _ _ _ _ Hpm Eq) as (p0 & n0 & S0 & I0 & ->). destruct (id_chain_last _ _ _ _ _ S0 I0) as (up & ->).
  rewrite last_last. rewrite Hi0 in A1. exact A1.
Qed.

(** ** Words *)

Definition class_of (t : mutation_type) : list string :=
  match t with
  | Generic UnaryOp => ["++"; "--"; "~"]
  | Solidity ElimDelegateCall => ["delegatecall"]
  | t => operators t
  end.

Lemma classes_apart : forall t t' w, In t word_kinds -> In t' word_kinds -> In w (class_of t) -> In w (class_of t') -> t = t'.
Proof.
  assert (C : forallb (fun t => forallb (fun t' => mt_eqb t t' || forallb (fun w => negb (smem w (class_of t'))) (class_of t)) word_kinds) word_kinds = true)
    by (vm_compute; reflexivity).
  intros t t' w H H' I I'. rewrite forallb_forall in C. specialize (C t H). rewrite forallb_forall in C. specialize (C t' H').
  apply orb_true_iff in C. destruct C as [C|C]; [now apply mt_eqb_eq|]. rewrite forallb_forall in C. specialize (C w I). now rewrite (In_smem _ _ I') in C.
Qed.

Lemma front_word : forall n ty w, is_n n ty -> (word_key ty =?s "") = false -> fld n (word_key ty) (JStr w) -> front n = [w].
Proof. intros n ty w A K F. unfold front. rewrite (is_n_type _ _ A). unfold label. rewrite K. unfold fld in F. now rewrite F. Qed.

Definition word_place (t : mutation_type) : string :=
  match t with Generic UnaryOp => "UnaryOperation" | Solidity ElimDelegateCall => "MemberAccess" | _ => "BinaryOperation" end.

Lemma accepted_word : forall t n, In t word_kinds -> sol_accepts t n ->
  exists w, is_n n (word_place t) /\ fld n (word_key (word_place t)) (JStr w) /\ In w (class_of t).
Proof.
  intros t n H A. cbn in H. repeat (destruct H as [<-|H]); try (exact (False_ind _ H)); cbn [sol_accepts] in A.
  1-5: destruct A as (Ty & op & I & F); exists op; split; [exact Ty|split; [exact F|exact I]].
  - destruct A as (Ty & p & op & _ & F & I). exists op. split; [exact Ty|]. split; [exact F|]. destruct p; cbn in I |- *; tauto.
  - destruct A as (Ty & F). exists "delegatecall". split; [exact Ty|]. split; [exact F|now left].
Qed.

Lemma made_word_field : forall t n n' w, In t word_kinds -> fld n (word_key (word_place t)) (JStr w) -> In w (class_of t) -> made n t n' ->
  exists v, field_becomes (word_key (word_place t)) (JStr v) n n' /\ v <> w.
Proof.
  intros t n n' w H F I M. cbn in H. repeat (destruct H as [<-|H]); try (exact (False_ind _ H)); inversion M as [t0 k v0 n0 Fi Fb| |]; subst; inversion Fi; subst;
      match goal with B : field_becomes _ (JStr ?v) n n' |- _ => exists v; split; [exact B|] end; unfold has_field in *; unfold fld in F; cbn in F;
      try congruence. all: try discriminate. all: cbn in I; destruct I as [<-|[]]; discriminate.
Qed.

Lemma made_word : forall t n n', In t word_kinds -> sol_accepts t n -> made n t n' -> relabelled n n'.
Proof.
  intros t n n' H A M. destruct (accepted_word t n H A) as (w & Ty & F & I).
  destruct (made_word_field t n n' w H F I M) as (v & (o & o' & -> & -> & Ks & _ & Gv & Go) & D).
  assert (K : (word_key (word_place t) =?s "") = false /\ In (word_key (word_place t)) ["operator"; "memberName"]).
  { cbn in H. repeat (destruct H as [<-|H]); try (exact (False_ind _ H)); (split; [reflexivity|cbn; tauto]). }
  destruct K as (K & Kw). assert (T : node_type o' = node_type o).
  { unfold node_type. rewrite Go; [reflexivity|]. intros Q. rewrite <- Q in Kw. cbn in Kw. destruct Kw as [Kw|[Kw|[]]]; discriminate. }
  assert (Ty' : is_n (JObj o') (word_place t)).
  { unfold is_n, fld in *. cbn [oget] in *. rewrite Go; [exact Ty|]. intros Q. rewrite <- Q in Kw. cbn in Kw. destruct Kw as [Kw|[Kw|[]]]; discriminate. }
  exists w, v. split; [exact (front_word _ _ _ Ty K F)|]. split; [exact (front_word _ _ _ Ty' K Gv)|]. split; [congruence|].
  cbn [parts]. rewrite T. apply map_ext_in. intros k Ik. unfold seg. cbn [oget]. rewrite Go; [reflexivity|].
  intros ->. apply (part_keys_plain _ _ Ik). cbn in Kw |- *. tauto.
Qed.

(** Keys and values determine an object. *)
Lemma fields_ext : forall o o' : list (string * json), map fst o = map fst o' -> once (map fst o) = true -> (forall k, assoc k o = assoc k o') -> o = o'.
Proof.
  induction o as [|[k v] o IH]; intros [|[k' v'] o'] E O H; cbn [map fst] in E; try discriminate E; [reflexivity|]. injection E as <- E.
  cbn [map fst once] in O. apply andb_true_iff in O. destruct O as (O1 & O2).
  pose proof (H k) as Hk. cbn [assoc] in Hk. rewrite String.eqb_refl in Hk. injection Hk as <-. f_equal. apply (IH o' E O2).
  intros k'. specialize (H k'). cbn [assoc] in H. destruct (k' =?s k) eqn:Q; [|exact H]. apply String.eqb_eq in Q. subst k'.
  assert (N : forall q : list (string * json), map fst q = map fst o -> assoc k q = None).
  { intros q Eq. assert (J : ~ In k (map fst q)) by (rewrite Eq; intros J; now rewrite (In_smem _ _ J) in O1).
    clear - J. induction q as [|[k1 v1] q IHq]; [reflexivity|]. cbn [assoc map fst In] in *. destruct (k =?s k1) eqn:Q; [apply String.eqb_eq in Q; subst k1; tauto|]. apply IHq. tauto. }
  rewrite (N o eq_refl), (N o' (eq_sym E)). reflexivity.
Qed.

Lemma becomes_same : forall k v n a b, lean n = true -> field_becomes k v n a -> field_becomes k v n b -> a = b.
Proof.
  intros k v n a b L (o & o1 & -> & -> & K1 & _ & A1 & B1) (o' & o2 & Q & -> & K2 & _ & A2 & B2). injection Q as <-. f_equal.
  apply fields_ext; [congruence|rewrite K1; exact (lean_once _ L)|]. intros k'. destruct (string_dec k' k) as [->|N]; [congruence|]. now rewrite B1, B2.
Qed.

Lemma active_not_inert : forall n, (exists ty, is_n n ty /\ In ty active) -> inert n = false.
Proof.
  intros n (ty & A & I). destruct n as [| | | | |o]; try discriminate A. cbn [inert]. unfold node_type. unfold is_n, fld in A. cbn [oget] in A. rewrite A.
  now rewrite (In_smem _ _ I).
Qed.

Lemma sel_nodup : forall ps m ast, NoDup (map fst (sel m (fst (allowed ps false ast)))).
Proof.
  intros ps m ast. eapply subseq_NoDup; [|apply positions_NoDup]. eapply subseq_trans; [apply subseq_map, subseq_filter|]. apply allowed_positions.
Qed.

(** ** Two mutants *)

Lemma one_written : forall e W P fuel license ast r l, rearranges (w_order W) ->
  unit_node license l ast -> lean ast = true -> uncommented ast ->
  (forall p n t, subtree p ast = Some n -> In t (rp_types P) -> sol_accepts t n -> sol_crash_free t n) ->
  forall ast' mr i t l', In (ast', mr) (mutants (fst (generate (solidity_files e) W P fuel ast r))) ->
  mr_type mr = Some t -> In t word_kinds -> mr_node mr = Some i -> ~ mutated_branch i ast -> unit_node license l' (without_comments ast') ->
  exists m p n r0 d k, sol_mutator_for e t = Some m /\ sol_accepts t n /\ mu_mutable m n = Ok true /\
    nth_error (sel m (fst (allowed (permissions_for_functions (rp_functions P)) false ast))) k = Some (p, n) /\
    subtree p ast = Some n /\ mu_mutate m fuel n r0 = Ok d /\ made n t (md_node d) /\
    mr = {| mr_type := mr_type (md_result d); mr_index := Some k; mr_node := mr_node (md_result d); mr_hash := mr_hash (md_result d) |} /\
    uwords l' = jwords (set_subtree p (md_node d) ast).
Proof.
  intros e W P fuel license ast r l Ho C L U Cf ast' mr i t l' H Ht Iw Hi Nb C'.
  destruct (mutation_place (solidity_files e) W P fuel ast r (ex_intro _ e (or_introl eq_refl)) Ho ast' mr H)
    as (t1 & m & p & n & r0 & d & k & Ht1 & Hm & It & Sl & S & Hmu & Hd & Emr & Fin).
  assert (t1 = t) as -> by congruence.
  cbn [solidity_files gl_lang solidity l_mutator_for l_id l_member l_insert] in *.
  pose proof (proj1 (sol_accepts_iff e t m n Hm) Hmu) as Acc. pose proof (Cf _ _ _ S It Acc) as Cfn.
  pose proof (sol_made e t m fuel n r0 d Cfn Hm Hmu Hd) as M.
  destruct (mutation_edit license e t m p n ast fuel r0 d l C L U S Cfn Hm Hmu Hd) as (l1 & Ed & U1 & L1).
  exists m, p, n, r0, d, k. split; [exact Hm|]. split; [exact Acc|]. split; [exact Hmu|]. split; [exact Sl|]. split; [exact S|]. split; [exact Hd|]. split; [exact M|]. split; [exact Emr|].
  rewrite <- (strip_words (set_subtree p (md_node d) ast)), (unit_words _ _ _ U1). rewrite <- (unit_words _ _ _ C').
  destruct Fin as [->|(c & path & Hc & Hp & ->)]; [exact (unit_words _ _ _ U1)|].
  destruct (sound_blocks i _ (made_sound license l ast i p n t (md_node d) C L Nb S Acc M)) as (Bl & Mb). rewrite <- (Hp i Hi) in Mb.
  destruct (sol_note e t m fuel n r0 d c Hm Hd Hc) as (text & ->).
  destruct (comment_braces license l1 _ (sol_comment text) path U1 L1 eq_refl Bl Mb) as (l2 & Sb & U').
  rewrite (unit_words _ _ _ U'). exact (braces_words _ _ Sb).
Qed.

Lemma words_once : forall e W P fuel license ast r l, rearranges (w_order W) ->
  unit_node license l ast -> lean ast = true -> uncommented ast ->
  (forall p n t, subtree p ast = Some n -> In t (rp_types P) -> sol_accepts t n -> sol_crash_free t n) ->
  forall j1 j2 ast1 mr1 i1 t1 l1 ast2 mr2 i2 t2 l2,
  let written := mutants (fst (generate (solidity_files e) W P fuel ast r)) in
  nth_error written j1 = Some (ast1, mr1) -> nth_error written j2 = Some (ast2, mr2) -> j1 <> j2 ->
  mr_type mr1 = Some t1 -> In t1 word_kinds -> mr_node mr1 = Some i1 -> ~ mutated_branch i1 ast -> unit_node license l1 (without_comments ast1) ->
  mr_type mr2 = Some t2 -> In t2 word_kinds -> mr_node mr2 = Some i2 -> ~ mutated_branch i2 ast -> unit_node license l2 (without_comments ast2) ->
  l1 <> l2.
Proof.
  intros e W P fuel license ast r l Ho C L U Cf j1 j2 ast1 mr1 i1 t1 l1 ast2 mr2 i2 t2 l2 written N1 N2 D T1 I1 Hi1 B1 C1 T2 I2 Hi2 B2 C2 Q. subst l2.
  assert (Dm : mr1 <> mr2).
  { intros <-. apply D. pose proof (no_duplicates (solidity_files e) W P fuel ast r) as Nd. fold written in Nd. rewrite NoDup_nth_error in Nd. apply Nd.
    - rewrite map_length. apply nth_error_Some. congruence.
    - rewrite !nth_error_map, N1, N2. reflexivity. }
  destruct (one_written e W P fuel license ast r l Ho C L U Cf ast1 mr1 i1 t1 l1 (nth_error_In _ _ N1) T1 I1 Hi1 B1 C1)
    as (m1 & p1 & n1 & r1 & d1 & k1 & M1 & A1 & Mu1 & S1 & P1 & D1 & G1 & E1 & W1).
  destruct (one_written e W P fuel license ast r l Ho C L U Cf ast2 mr2 i2 t2 l1 (nth_error_In _ _ N2) T2 I2 Hi2 B2 C2)
    as (m2 & p2 & n2 & r2 & d2 & k2 & M2 & A2 & Mu2 & S2 & P2 & D2 & G2 & E2 & W2).
  pose proof (made_word t1 n1 _ I1 A1 G1) as R1. pose proof (made_word t2 n2 _ I2 A2 G2) as R2.
  pose proof (active_not_inert n1 (accepted_active t1 n1 A1)) as V1. pose proof (active_not_inert n2 (accepted_active t2 n2 A2)) as V2.
  rewrite W1 in W2. destruct (list_eq_dec Nat.eq_dec p1 p2) as [<-|Np].
  2:{ exact (two_places p1 p2 ast n1 n2 _ _ P1 P2 L V1 V2 R1 R2 Np W2). }
  rewrite P1 in P2. injection P2 as <-. assert (t1 = t2) as <-.
  { destruct (accepted_word t1 n1 I1 A1) as (w & Ty & F & Iw). destruct (accepted_word t2 n1 I2 A2) as (w' & Ty' & F' & Iw').
    apply (classes_apart t1 t2 w I1 I2 Iw). unfold is_n, fld in *. assert (word_place t1 = word_place t2) as Qp by congruence. rewrite <- Qp in F'. congruence. }
  rewrite M1 in M2. injection M2 as <-. assert (k1 = k2) as <-.
  { pose proof (sel_nodup (permissions_for_functions (rp_functions P)) m1 ast) as Nd. rewrite NoDup_nth_error in Nd. apply Nd.
    - rewrite map_length. apply nth_error_Some. congruence.
    - rewrite !nth_error_map, S1, S2. reflexivity. }
  assert (One : sol_one_way t1 n1).
  { clear - I1. cbn in I1. unfold sol_one_way. repeat (destruct I1 as [<-|I1]); try (exact (False_ind _ I1)); repeat split; discriminate. }
  assert (Dn : md_node d1 <> md_node d2).
  { intros Q. apply Dm. rewrite E1, E2. now rewrite (sol_ways e t1 m1 fuel n1 r1 d1 fuel r2 d2 One M1 Mu1 D1 D2 Q). }
  destruct (same_place p1 ast n1 (md_node d1) (md_node d2) P1 L V1) as (_ & Df).
  - destruct (relabelled_words _ _ R1) as (Q1 & _). destruct (relabelled_words _ _ R2) as (Q2 & _). congruence.
  - intros Qw. apply Dn. destruct (accepted_word t1 n1 I1 A1) as (w & Ty & F & Iw).
    destruct (made_word_field t1 n1 _ w I1 F Iw G1) as (v1 & Fb1 & _). destruct (made_word_field t1 n1 _ w I1 F Iw G2) as (v2 & Fb2 & _).
    assert (v1 = v2) as <-; [|exact (becomes_same _ _ _ _ _ (sub_lean p1 ast n1 (accepted_active t1 n1 A1) L P1) Fb1 Fb2)].
    assert (Fr : forall n' v, field_becomes (word_key (word_place t1)) (JStr v) n1 n' -> relabelled n1 n' -> front n' = [v]).
    { intros n' v (o & o' & -> & -> & _ & _ & Gv & Go) _.
      assert (K : (word_key (word_place t1) =?s "") = false /\ In (word_key (word_place t1)) ["operator"; "memberName"]).
      { clear - I1. cbn in I1. repeat (destruct I1 as [<-|I1]); try (exact (False_ind _ I1)); (split; [reflexivity|cbn; tauto]). }
      destruct K as (K & Kw). refine (front_word (JObj o') _ _ _ K Gv). unfold is_n, fld in *. cbn [oget] in *. rewrite Go; [exact Ty|].
      intros Qk. rewrite <- Qk in Kw. cbn in Kw. destruct Kw as [Kw|[Kw|[]]]; discriminate. }
    rewrite !jwords_parts, (Fr _ _ Fb1 R1), (Fr _ _ Fb2 R2) in Qw. cbn [app] in Qw. congruence.
  - exact (Df W2).
Qed.
