(** A comment put into the tree of a Solidity program stands where comments may
    stand. *)
From Coq Require Import String Ascii List NArith ZArith Bool Lia.
From Verif Require Import Base Json JsonFacts SolMutators SpecTree SpecMutation SpecOps SpecPlain SpecAccept SpecLiteral SpecVyText SpecSolText SpecSolRead SpecSolEdit SpecSolNote SpecComments
  Comments PlainFacts TraverseFacts3 CommentFacts LocalFacts SolText SolTextStmt SolTextClaims SolPlace SolStrip SolEditFacts SolEditClaims SolHouse.
From Verif Require VyEditClaims.
Import ListNotations.
Open Scope string_scope.
Open Scope list_scope.

Lemma set_field : forall o i k w w', nth_error o i = Some (k, w) -> set_subtree [i] w' (JObj o) = set_child i w' (JObj o).
Proof. intros o i k w w' N. cbn [set_subtree children]. rewrite nth_error_map, N. reflexivity. Qed.

Lemma house_not_free : forall n ty, is_n n ty -> In ty houses -> ~ free n.
Proof. intros n ty A I F. apply (ev_root _ _ F ty A). now right. Qed.

Lemma bodies_fields : forall ty k, In (ty, k) sol_bodies -> In (ty, k) body_fields /\ In ty houses.
Proof. intros ty k I. cbn in I |- *. repeat (destruct I as [I|I]; [injection I as <- <-; intuition|]). destruct I. Qed.

Lemma set_object : forall i y n, is_object n = true -> is_object (set_subtree [i] y n) = true.
Proof. intros i y n O. destruct n as [| | | | |o]; try discriminate O. cbn [set_subtree children]. destruct (nth_error (map snd o) i); reflexivity. Qed.

Lemma sol_object : forall ty n, is_sol ty n -> is_object n = true.
Proof. intros ty n A. destruct n; try discriminate A. reflexivity. Qed.

Lemma set_type : forall n ty k i b b', In (ty, k) sol_lists \/ In (ty, k) sol_bodies -> is_sol ty n -> field_at n i k b -> is_comment (set_subtree [i] b' n) = false.
Proof.
  intros n ty k i b b' I A F. destruct (VyEditClaims.home_becomes n i k b b' F) as (_ & _ & E).
  assert (T : k <> "nodeType" /\ (ty =?s "Comment") = false) by (destruct I as [I|I]; cbn in I; repeat (destruct I as [I|I]; [injection I as <- <-; split; [discriminate|reflexivity]|]); destruct I).
  destruct T as (Nk & Nc). rewrite (type_comment _ ty); [exact Nc|]. unfold is_n, fld. rewrite E by congruence. exact A.
Qed.
Lemma set_objects : forall q y n, is_object n = true -> q <> [] -> is_object (set_subtree q y n) = true.
Proof. intros [|i q] y n O N; [congruence|]. destruct n as [| | | | |o]; try discriminate O. cbn [set_subtree children]. destruct (nth_error (map snd o) i); reflexivity. Qed.

Section Note.
Variable i0 : N.
Variable Q : json -> Prop.
Notation housed := (housed i0 Q). Notation placed := (placed i0 Q). Notation element := (element i0 Q). Notation kept := (kept i0 Q).

(** A list with one more comment. *)
Definition grown (l l' : list json) : Prop :=
  Forall (element true) l /\ solid l -> (Forall (element true) l' /\ solid l') /\ l' <> [].

Lemma note_list : forall n ty k i l l', In (ty, k) sol_lists -> is_sol ty n -> field_at n i k (JArr l) -> (housed n -> grown l l') ->
  housed n -> housed (set_subtree [i] (JArr l') n).
Proof.
  intros n ty k i l l' I A (o & -> & N & _) El H. specialize (El H). rewrite (set_field o i k (JArr l)) by exact N. destruct (field_mid o i k (JArr l) N) as (o1 & o2 & -> & ->).
  assert (J : In (ty, k, true) list_fields) by (cbn in I |- *; repeat (destruct I as [I|I]; [injection I as <- <-; tauto|]); destruct I).
  assert (K : kept ty k (JArr l)).
  { inversion H as [o C Fi Ka]; subst. rewrite (type_is _ _ A) in Ka. rewrite kept_iff in Ka. apply Ka, in_or_app. right. now left. }
  destruct (El (kept_elements i0 Q _ _ _ K J)) as ((El' & Sl') & Ne).
  apply (housed_field i0 Q Q o1 o2 k (JArr l)); [auto|exact Logic.I|intros E; injection E as E; contradiction|exact H|]. rewrite (type_is _ _ A). intros _.
  apply kp_list with true; [exact J|exact Sl'|]. apply list_iff. exact El'.
Qed.

Lemma note_body : forall n ty k i b b', In (ty, k) sol_bodies -> is_sol ty n -> field_at n i k b -> is_object b = true -> is_object b' = true -> (placed b -> placed b') ->
  housed n -> housed (set_subtree [i] b' n).
Proof.
  intros n ty k i b b' I A (o & -> & N & _) Ob Ob' Hb H. rewrite (set_field o i k b) by exact N. destruct (field_mid o i k b N) as (o1 & o2 & -> & ->).
  destruct (bodies_fields ty k I) as (J & _).
  apply (housed_field i0 Q Q o1 o2 k b); [auto|destruct b; try discriminate Ob; destruct b'; try discriminate Ob'; exact Logic.I|intros ->; discriminate Ob'|exact H|]. rewrite (type_is _ _ A). intros K.
  assert (Pb : placed b') by (apply Hb; destruct K; [now left|now right|discriminate Ob]). destruct Pb as [F|F]; [now apply kp_free|now apply kp_body].
Qed.

Lemma before_grown : forall idm id c l l', is_comment c = true -> Q c -> before_first idm id c l l' -> grown l l'.
Proof.
  intros idm id c l l' C Hc (l1 & x & l2 & -> & -> & _) (F & S). split; [split|destruct l1; discriminate].
  - apply Forall_app in F. destruct F as (F1 & F2). apply Forall_app. split; [exact F1|]. constructor; [now apply el_comment|exact F2].
  - destruct S as [S|(y & Iy & Cy)]; [destruct l1; discriminate S|]. right. exists y. split; [|exact Cy]. apply in_app_or in Iy. apply in_or_app. destruct Iy; [now left|right; now right].
Qed.
Lemma front_grown : forall c l, is_comment c = true -> Q c -> l <> [] -> grown l (c :: l).
Proof.
  intros c l C Hc N (F & S). split; [split|discriminate]; [constructor; [now apply el_comment|exact F]|]. destruct S as [->|(y & Iy & Cy)]; [congruence|]. right. exists y. split; [now right|exact Cy].
Qed.

Lemma wrapping_housed : forall c b, is_comment c = true -> Q c -> placed b -> housed (wrapping c b).
Proof.
  intros c b C Hc P. unfold wrapping. apply hs_node; [reflexivity|intros _ _ F; discriminate F|]. apply kept_iff. intros k v I. cbn in I.
  repeat (destruct I as [I|I]; [injection I as <- <-; try (apply kp_free, free_flat; reflexivity)|]); [|destruct I].
  apply kp_list with true; [cbn; tauto| |].
  - right. exists b. split; [right; now left|exact (placed_comment i0 Q b P)].
  - apply list_iff. constructor; [now apply el_comment|]. constructor; [|constructor]. destruct P; [now apply el_free|now apply el_housed].
Qed.

Lemma note_housed : forall c n q x y, is_comment c = true -> Q c -> sol_place i0 c n q x y ->
  (exists ty, is_n n ty /\ In ty houses) /\ (housed n -> housed (set_subtree q y n)) /\ is_comment (set_subtree q y n) = false.
Proof.
  intros c n q x y C Hc P.
  assert (In2 : forall ty k i b j l l', In (ty, k) sol_bodies -> is_sol ty n -> field_at n i k b -> is_sol "Block" b -> field_at b j "statements" (JArr l) ->
    (housed b -> grown l l') -> (exists ty, is_n n ty /\ In ty houses) /\ (housed n -> housed (set_subtree [i; j] (JArr l') n)) /\ is_comment (set_subtree [i; j] (JArr l') n) = false).
  { intros ty k i b j l l' I A F Hb Fj El. split; [exists ty; split; [exact A|apply (bodies_fields ty k I)]|].
    assert (Eq : set_subtree [i; j] (JArr l') n = set_subtree [i] (set_subtree [j] (JArr l') b) n).
    { destruct F as (o & -> & N & _). cbn [set_subtree children]. rewrite nth_error_map, N. reflexivity. }
    rewrite Eq. split; [|exact (set_type n ty k i b _ (or_intror I) A F)]. intros H. apply (note_body n ty k i b _ I A F); [exact (sol_object _ _ Hb)|apply set_object, (sol_object _ _ Hb)| |exact H].
    intros [Fb|Hb']; [exfalso; apply (house_not_free b "Block" Hb); [cbn; tauto|exact Fb]|]. right. apply (note_list b "Block" "statements" j l l'); try assumption. cbn; tauto. }
  destruct P as [ty k i l0 l' I A F Be|ty k i b j l0 l' I A F Hb Ni Fj Be|ty k i b j l0 I A F Hb Ni Fj|ty k i b s I A F Hs Ns Ct].
  - split; [exists ty; split; [exact A|cbn in I |- *; repeat (destruct I as [I|I]; [injection I as <- <-; tauto|]); destruct I]|]. split; [|exact (set_type n ty k i _ _ (or_introl I) A F)].
    apply (note_list n ty k i l0 l' I A F). intros _. now apply (before_grown sol_id i0 c).
  - apply (In2 ty k i b j l0 l' I A F Hb Fj). intros _. now apply (before_grown sol_id i0 c).
  - apply (In2 ty k i b j l0 (c :: l0) I A F Hb Fj). intros Hh. apply front_grown; [exact C|exact Hc|]. intros ->.
    inversion Hh as [o Co Fi Ka]; subst. apply (Fi (type_is o _ Hb) Ni). exact (at_get _ _ _ _ Fj).
  - split; [exists ty; split; [exact A|apply (bodies_fields ty k I)]|]. split; [|exact (set_type n ty k i _ _ (or_intror I) A F)].
    apply (note_body n ty k i b _ I A F); [exact (sol_object _ _ Hs)|reflexivity|]. intros Pb. right. now apply wrapping_housed.
Qed.

Lemma comment_placed : forall ast c path, (forall c, Q c -> is_comment c = true /\ forall v, In v (children c) -> free v) -> Q c ->
  placed ast -> blocks_have_lists ast -> last path 0%N = i0 -> ~ mutated_branch i0 ast ->
  placed (insert_comment_by_path sol_id sol_member sol_insert ast c path).
Proof.
  intros ast c path HQ Hc P Bl El Mb. rewrite <- El in Mb. destruct (HQ c Hc) as (C & _).
  destruct (sol_comment_lemma ast c path Bl Mb) as [(outer & up & inner & p & n & q & x & y & _ & S & _ & Pl & Sq & Rp & _)|(E & _)]; [|now rewrite E].
  rewrite (replaced_at_unique _ _ _ _ _ Sq Rp). rewrite <- (set_subtree_app p q _ ast n S).
  rewrite El in Pl. destruct (note_housed _ _ _ _ _ C Hc Pl) as ((ty & A & I) & Hh & Cn').
  assert (Cn : is_comment n = false) by (rewrite (type_comment n ty A); cbn in I; repeat (destruct I as [<-|I]; [reflexivity|]); destruct I).
  pose proof (sol_object ty n A) as On.
  apply (placed_set _ Q Q n); try assumption.
  - auto.
  - intros c0 p0 Q0 S0. destruct (HQ c0 Q0) as (C0 & F0). destruct p0 as [|j p0]; [injection S0 as ->; congruence|]. cbn [subtree] in S0.
    destruct (nth_error (children c0) j) as [w|] eqn:Nw; [|discriminate S0]. apply (house_not_free n ty A I). exact (ev_part _ _ n (F0 w (nth_error_In _ _ Nw)) (ex_intro _ p0 S0)).
  - apply set_objects; [exact On|]. destruct Pl; discriminate.
  - intros F. destruct (house_not_free n ty A I F).
  - intros H. right. exact (Hh H).
Qed.
End Note.
