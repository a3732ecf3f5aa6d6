(** The text of a Solidity mutant is read as the edited program. *)
From Coq Require Import String Ascii List NArith ZArith Bool Lia.
From Verif Require Import Base Json JsonFacts Rng MutationType Traverse OpCommon SolMutators Language Generator Printer SolPrinter
  SpecTree SpecMutation SpecOps SpecPrinter SpecPlain SpecTotal SpecAccept SpecGenerator SpecComments SpecLiteral SpecVyText SpecSolText SpecSolRead SpecSolEdit SpecSolNote
  Comments CommentFacts PlainFacts AcceptFacts KeepSol SolText SolTextStmt SolTextClaims SolPlace SolStrip SolMade SolEditFacts SolEditClaims SolNoteClaims SolHouse SolHouseUnit SolHouseNote.
Import ListNotations.
Open Scope string_scope.
Open Scope list_scope.

(** Comments that are printed on lines of their own and have nothing in them
    that a comment could be added to. *)
Definition plain_comment (h : nat) (c : json) : Prop := fair_comment h c /\ forall v, In v (children c) -> free v.

Lemma text_plain : forall h text, plain_comment h (sol_comment text).
Proof.
  intros h text. split; [split; [reflexivity|now left]|]. intros v I. cbn in I.
  repeat (destruct I as [<-|I]; [apply free_flat; reflexivity|]). destruct I.
Qed.

Lemma statement_plain : forall h x, is_sol "ExpressionStatement" x -> short_statement h x -> lean x = true -> uncommented x -> plain_comment h (sol_comment_node x).
Proof.
  intros h x A (s & Cn & Ez & Sh) L U. split.
  - split; [reflexivity|]. right. split; [left; reflexivity|]. exists x, s. split; [reflexivity|]. auto.
  - assert (Si : is_simple s = true).
    { destruct s as [| |c l| | | | | | | |w|]; cbn [cnode] in Cn; try reflexivity.
      all: try (destruct Cn as (B & _); exfalso; unfold is_n, fld in B; unfold is_sol, has_field in A; rewrite A in B; first [discriminate B|destruct c; discriminate B]).
      exfalso. destruct Cn as (ty & I & B). unfold is_n, fld in B; unfold is_sol, has_field in A; rewrite A in B. injection B as <-. cbn in I. intuition discriminate. }
    pose proof (simple_free s x Cn Si L U) as Fx.
    intros v I. cbn in I. repeat (destruct I as [I|I]; [subst v; cbn [fst snd]; first [exact Fx|apply free_flat; unfold jint; repeat match goal with |- context [if ?b then _ else _] => destruct b end; reflexivity]|]); destruct I.
Qed.

Lemma solidity_mutants_read : forall e W P fuel license ast r l h, rearranges (w_order W) ->
  unit_node license l ast -> forallb top_spelled l = true -> lean ast = true -> uncommented ast ->
  (forall p n t, subtree p ast = Some n -> In t (rp_types P) -> sol_accepts t n -> sol_crash_free t n) ->
  (In (Generic DeleteStatement) (rp_types P) -> forall p v, subtree p ast = Some v -> is_sol "ExpressionStatement" v -> short_statement h v) ->
  forall ast' mr i, In (ast', mr) (mutants (fst (generate (solidity_files e) W P fuel ast r))) ->
  mr_node mr = Some i -> ~ mutated_branch i ast ->
  (forall p b, subtree p ast = Some b -> is_sol "Block" b -> sol_id b = Some i -> ~ has_field b "statements" (JArr [])) ->
  exists t l1 l', mr_type mr = Some t /\ In t (rp_types P) /\ one_edit t l l1 /\ same_but_braces l1 l' /\ unit_node license l' (without_comments ast') /\
  (oeasy one_line license -> Forall (easy_top_level h) l' -> (N.of_nat h <= 36)%N -> narrow 150 (unit_text 4 license l') -> forallb top_spelled l' = true ->
   forall oc text, sol_print oc ast' = Ok text -> reads text l').
Proof.
  intros e W P fuel license ast r l h Ho C Sp L U Cf Sh ast' mr i H Hi Nb Em.
  assert (Pl : noted h (without_comments ast') ast').
  { destruct (mutation_path (solidity_files e) W P fuel ast r (ex_intro _ e (or_introl eq_refl)) Ho ast' mr H)
      as (t & m & p & n & r0 & d & ast1 & Ht & It & Hm & S & Hmu & Hd & -> & Fin).
    cbn [solidity_files gl_lang solidity l_mutator_for l_id l_member l_insert] in *.
    pose proof (proj1 (sol_accepts_iff e t m n Hm) Hmu) as Acc. pose proof (accepted_active t n Acc) as Tx.
    pose proof (sol_made e t m fuel n r0 d (Cf _ _ _ S It Acc) Hm Hmu Hd) as M.
    pose proof (SolStrip.uncommented_sub _ _ _ U S) as Un. pose proof (sub_lean p ast n Tx L S) as Ln.
    pose proof (hit_at n (md_node d) p ast S) as Hit.
    destruct (replaced_part license l ast _ n (md_node d) C L Tx Hit) as (t1 & K1 & _).
    destruct (outcome_edit license t1 t n (md_node d) K1 Acc Un M) as (t1' & _ & K2 & _).
    pose proof (any_object _ _ _ K2) as O. rewrite strip_object in O. pose proof (any_comment _ _ _ K2) as Cm. rewrite strip_comment in Cm.
    pose proof (any_object _ _ _ K1) as On.
    assert (Full : full i ast) by (intros q b Sq; exact (Em q b Sq)).
    pose proof (unit_housed i license l ast C Sp L U Full) as Hh.
    destruct n as [| | | | |o]; try discriminate On. set (n := JObj o) in *.
    assert (Del : t = Generic DeleteStatement -> forall l0 x, has_field n "statements" (JArr l0) -> In x l0 -> is_sol "ExpressionStatement" x -> plain_comment h (sol_comment_node x)).
    { intros -> l0 x Fl Ix Ax. pose proof (SolStrip.assoc_In _ _ _ _ Fl) as Io.
      destruct (In_nth_error _ _ Io) as (a & Na). destruct (In_nth_error _ _ Ix) as (b & Nb').
      apply statement_plain; [exact Ax| | |].
      - apply (Sh It (p ++ [a; b])); [|exact Ax]. rewrite (subtree_app p [a; b] ast n S). unfold n. cbn [subtree children]. rewrite nth_error_map, Na. cbn [option_map snd subtree children]. rewrite Nb'. reflexivity.
      - apply (lean_elem l0); [|exact Ix]. destruct (proj2 (proj1 (lean_iff o) Ln) _ _ Io) as [E|(_ & E)]; [exact (inert_lean _ E)|exact E].
      - apply (SolStrip.uncommented_elem l0); [|exact Ix]. exact (SolStrip.uncommented_field n _ _ Un Fl). }
    destruct (made_placed i (plain_comment h) t n (md_node d) Del Acc (lean_once o Ln) O M) as (Mf & Mh).
    assert (P1 : placed i (plain_comment h) (set_subtree p (md_node d) ast)).
    { apply (placed_set i nothing (plain_comment h) n); try assumption; try reflexivity.
      - intros c [].
      - intros c p0 [].
      - exact (uncommented_root n Un).
      - now right. }
    apply (placed_noted i h (plain_comment h)); [intros c Hc; apply Hc|].
    destruct Fin as [->|(c & path & Hc & Hp & ->)]; [exact P1|].
    destruct (sound_blocks i _ (made_sound license l ast i p n t (md_node d) C L Nb S Acc M)) as (Bl & Mb).
    destruct (sol_note e t m fuel n r0 d c Hm Hd Hc) as (text & ->).
    apply comment_placed; [intros c Q0; split; [apply Q0|apply Q0]|apply text_plain|exact P1|exact Bl|exact (Hp i Hi)|exact Mb]. }
  destruct (solidity_mutants_edit e W P fuel license ast r l Ho C L U Cf ast' mr i H Hi Nb) as (t & l1 & l' & Ht & It & Ed & Sb & U').
  exists t, l1, l'. split; [exact Ht|]. split; [exact It|]. split; [exact Ed|]. split; [exact Sb|]. split; [exact U'|].
  intros Li Ez Hh Na Sp' oc text Pr. exact (printed_sol_notes oc license l' _ ast' h text U' Pl Li Ez Hh Na Sp' Pr).
Qed.
