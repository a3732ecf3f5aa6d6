(** Members of contracts and source files are read back from their tokens. *)
From Coq Require Import String Ascii List NArith ZArith Bool Lia.
From Verif Require Import Base Json SpecLiteral SpecVyText SpecSolText SpecSolRead LitFacts PathFacts SolReadLex SolReadToks SolReadToks2 SolReadToks3 SolReadParse SolReadExp SolReadVar SolReadStmt SolTextClaims SolTextStmt.
From Verif Require SolText.
Import ListNotations.
Open Scope string_scope.
Open Scope list_scope.

(** ** Modifiers and bases *)

(** Neither arguments nor the rest of a path. *)
Definition apart (ts : list token) : Prop := sym "(" ts = None /\ match ts with KSym s :: _ => s <> "." | _ => True end.
Definition part (ts : list token) : Prop := forall r, apart r -> apart (ts ++ r).

Lemma exps_ok : forall l, forallb exp_spelled l = true -> ok (fun f => items f (expr f 3) ")") (fun _ => True) (commas (map xtoks l) ++ [KSym ")"]) l.
Proof.
  intros l H. rewrite forallb_forall in H. destruct (ok_all expression (stops 3) xtoks l) as (N & P); [intros e I; now apply exp_ok, H|].
  exists (N + List.length l). intros f F rest _. rewrite <- app_assoc. cbn [app]. apply items_ok.
  - discriminate.
  - intros e r I. apply exp_not_sym; [now apply H|reflexivity].
  - intros e r I (r2 & B). unfold expression in P. apply P; [exact I|lia|]. destruct B as [-> | ->]; exact Logic.I.
  - lia.
Qed.

Lemma invocation_ok : forall m, call_spelled m = true -> ok invocation apart (call_toks m) m.
Proof.
  intros (e, o) H. unfold call_spelled in H. cbn [fst snd] in H. andb. destruct e; try discriminate. cbn [path_spelled] in *. unfold call_toks. cbn [fst snd id_toks].
  destruct o as [l|]; cbn [maybe otoks] in *.
  - destruct (exps_ok l) as (N & P); [assumption|]. exists N. intros f F rest _. rewrite <- app_assoc.
    change ((KSym "(" :: commas (map xtoks l) ++ [KSym ")"]) ++ rest) with (KSym "(" :: (commas (map xtoks l) ++ [KSym ")"]) ++ rest).
    unfold invocation. rewrite path_ok; [|assumption|discriminate]. cbn [then_ sym String.eqb Ascii.eqb Bool.eqb]. rewrite P; [reflexivity|exact F|exact Logic.I].
  - exists 0. intros f _ rest (A & B). rewrite app_nil_r. unfold invocation. rewrite path_ok; [|assumption|exact B]. cbn [then_]. now rewrite A.
Qed.

Lemma call_head : forall m, call_spelled m = true -> exists p q, call_toks m = KWord p :: q /\ name p = true.
Proof.
  intros (e, o) H. unfold call_spelled in H. cbn [fst snd] in H. andb. destruct e; try discriminate. cbn [path_spelled] in *. unfold call_toks. cbn [fst snd id_toks].
  match goal with K : path_name x = true |- _ => destruct (path_cons x K) as (p & l & _ & Hp & _ & ->) end. eexists p, _. split; [reflexivity|exact Hp].
Qed.

(** ** The words of a function *)

Definition fruns (m : marks) (ts : list token) (m' : marks) : Prop :=
  exists c N, forall f k r, N <= k -> apart r -> fun_words (c + f) k m (ts ++ r) = fun_words f k m' r.

Lemma fruns_refl : forall m, fruns m [] m.
Proof. intros. exists 0, 0. reflexivity. Qed.
Lemma fruns_trans : forall a s b t c, fruns a s b -> part t -> fruns b t c -> fruns a (s ++ t) c.
Proof.
  intros a s b t c (k1 & N1 & H1) W (k2 & N2 & H2). exists (k1 + k2), (N1 + N2). intros f k r F No.
  rewrite <- Nat.add_assoc, <- app_assoc, H1; [|lia|now apply W]. apply H2; [lia|exact No].
Qed.
Lemma fruns_step : forall m w m', (forall f k r, fun_words (Datatypes.S f) k m (KWord w :: r) = fun_words f k m' r) -> fruns m [KWord w] m'.
Proof. intros m w m' H. exists 1, 0. intros f k r _ _. apply H. Qed.

Lemma wtoks_part : forall x, part (wtoks x).
Proof. intros x r H. unfold wtoks. destruct (x =?s ""); [exact H|split; [reflexivity|exact Logic.I]]. Qed.
Lemma ftoks_part : forall b x, part (ftoks b x).
Proof. intros [] x r H; [split; [reflexivity|exact Logic.I]|exact H]. Qed.
Lemma override_part : forall o, part (override_toks o).
Proof. intros [[|e l]|] r H; [split; [reflexivity|exact Logic.I]|split; [reflexivity|exact Logic.I]|exact H]. Qed.
Lemma app_part : forall a b, part a -> part b -> part (a ++ b).
Proof. intros a b A B r H. rewrite <- app_assoc. auto. Qed.
Lemma calls_part : forall l, forallb call_spelled l = true -> part (flat_map call_toks l).
Proof.
  intros [|m l] H r A; [exact A|]. cbn [forallb flat_map] in *. andb. destruct (call_head m) as (p & q & -> & _); [assumption|]. split; [reflexivity|exact Logic.I].
Qed.

Lemma override_runs : forall vis vir mut o mods, maybe (forallb path_spelled) o = true -> fruns (Marks vis vir mut None mods) (override_toks o) (Marks vis vir mut o mods).
Proof.
  intros vis vir mut [l|] mods H; [|apply fruns_refl]. exists 1, (List.length l). intros f k r F (No & _).
  destruct (override_ok (Some l) r H No k F) as (r' & -> & E). cbn [Nat.add fun_words]. cbn [smem String.eqb Ascii.eqb Bool.eqb existsb orb].
  change (smem "override" mutability_words) with false. cbv iota. rewrite E. reflexivity.
Qed.

Lemma mods_run : forall l vis vir mut o mods, forallb call_spelled l = true ->
  fruns (Marks vis vir mut o mods) (flat_map call_toks l) (Marks vis vir mut o (mods ++ l)).
Proof.
  induction l as [|m l IH]; intros vis vir mut o mods H; [rewrite app_nil_r; apply fruns_refl|]. cbn [forallb flat_map] in *. andb.
  apply fruns_trans with (Marks vis vir mut o (mods ++ [m])); [|now apply calls_part|].
  - destruct (invocation_ok m) as (N & P); [assumption|]. exists 1, N. intros f k r F A. destruct (call_head m) as (p & q & E & Np); [assumption|].
    specialize (P k F r A). rewrite E in *. cbn [app Nat.add fun_words] in *.
    rewrite (name_no p ["public"; "private"; "internal"; "external"] Np eq_refl), (name_unequal p "virtual" Np eq_refl), (name_no p mutability_words Np eq_refl),
      (name_unequal p "override" Np eq_refl), (name_unequal p "returns" Np eq_refl), P. reflexivity.
  - replace (mods ++ m :: l) with ((mods ++ [m]) ++ l) by (now rewrite <- app_assoc). now apply IH.
Qed.

Ltac parts := repeat first [apply app_part|apply ftoks_part|apply wtoks_part|apply override_part|apply calls_part; assumption].

Lemma fun_words_ok : forall vis vir mut o mods, smem vis [""; "public"; "private"; "internal"; "external"] = true ->
  blank_or (fun m => smem m mutability_words) mut = true -> maybe (forallb path_spelled) o = true -> forallb call_spelled mods = true ->
  fruns (Marks "" false "" None []) (wtoks vis ++ ftoks vir "virtual" ++ wtoks mut ++ override_toks o ++ flat_map call_toks mods) (Marks vis vir mut o mods).
Proof.
  intros vis vir mut o mods H1 H2 H3 H4.
  apply fruns_trans with (Marks vis false "" None []); [|parts|].
  { apply smem_In in H1. destruct H1 as [<-|[<-|[<-|[<-|[<-|[]]]]]]; [apply fruns_refl| | | |]; apply fruns_step; reflexivity. }
  apply fruns_trans with (Marks vis vir "" None []); [|parts|].
  { destruct vir; [apply fruns_step; reflexivity|apply fruns_refl]. }
  apply fruns_trans with (Marks vis vir mut None []); [|parts|].
  { destruct (blank_cases _ _ H2) as [->|(_ & M)]; [apply fruns_refl|]. apply smem_In in M. destruct M as [<-|[<-|[<-|[]]]]; apply fruns_step; reflexivity. }
  apply fruns_trans with (Marks vis vir mut o []); [now apply override_runs|parts|]. exact (mods_run mods vis vir mut o [] H4).
Qed.

(** ** Functions *)

Lemma body_ok : forall b, body_spelled b = true -> ok body_of (fun _ => True) (ends_toks b) b.
Proof.
  intros [s|] H; cbn [body_spelled maybe ends_toks] in *.
  - andb. destruct (block_ok s) as (N & P); [assumption|now apply stmt_ok|]. exists N. intros f F rest _. unfold body_of. rewrite P; [|exact F|exact Logic.I].
    destruct s; try discriminate. destruct unchecked; [discriminate|]. reflexivity.
  - exists 0. intros f _ rest _. reflexivity.
Qed.
Lemma ends_part : forall b r, body_spelled b = true -> apart (ends_toks b ++ r) /\ word "returns" (ends_toks b ++ r) = None /\ not_word (ends_toks b ++ r).
Proof.
  intros [s|] r H; cbn [body_spelled maybe ends_toks] in *.
  - andb. destruct s; try discriminate. destruct unchecked; [discriminate|]. repeat split; discriminate.
  - repeat split; discriminate.
Qed.

Lemma words_end : forall f k m r, (not_word r \/ exists q, r = KWord "returns" :: q) -> fun_words (Datatypes.S f) k m r = Some (m, r).
Proof.
  intros f k [vis vir mut o mods] r [H|(q & ->)]; [|reflexivity]. destruct r as [|[] r]; try reflexivity. destruct H.
Qed.

Lemma results_ok : forall l, forallb param_spelled l = true -> exists N, forall f, N <= f -> forall rest, word "returns" rest = None ->
  match word "returns" (returns_toks l ++ rest) with Some r => params f r | None => Some ([], returns_toks l ++ rest) end = Some (l, rest).
Proof.
  intros [|v l] H; [exists 0; intros f _ rest W; cbn [returns_toks app]; now rewrite W|].
  destruct (params_ok (v :: l) H) as (N & P). exists N. intros f F rest _. cbn [returns_toks app word String.eqb Ascii.eqb Bool.eqb]. now apply P.
Qed.

Definition after_name (f : sfun) : list token :=
  params_toks (sf_params f) ++
  (wtoks (sf_visibility f) ++ ftoks (sf_virtual f) "virtual" ++ wtoks (sf_mutability f) ++ override_toks (sf_override f) ++ flat_map call_toks (sf_modifiers f)) ++
  returns_toks (sf_returns f) ++ ends_toks (sf_body f).

Lemma function_ok : forall f, fun_spelled f = true -> ok (fun n => function_of n (sf_kind f) (sf_name f)) (fun _ => True) (after_name f) (MFun f).
Proof.
  intros [kind x ps vis vir mut o mods rs b] H. unfold fun_spelled in H. cbn [sf_kind sf_name sf_params sf_visibility sf_virtual sf_mutability sf_override sf_modifiers sf_returns sf_body] in *. andb.
  destruct (params_ok ps) as (N1 & P); [assumption|]. destruct (fun_words_ok vis vir mut o mods) as (c & N2 & W); try assumption.
  destruct (results_ok rs) as (N3 & R); [assumption|]. destruct (body_ok b) as (N4 & B); [assumption|].
  exists (N1 + c + N2 + N3 + N4 + 1). intros f F rest _. unfold after_name, function_of. cbn [sf_kind sf_name sf_params sf_visibility sf_virtual sf_mutability sf_override sf_modifiers sf_returns sf_body].
  set (ws := wtoks vis ++ ftoks vir "virtual" ++ wtoks mut ++ override_toks o ++ flat_map call_toks mods) in *. rewrite <- !app_assoc.
  rewrite P; [|lia|exact Logic.I]. cbn [then_].
  destruct (ends_part b rest) as (Ap & Wr & Nw); [assumption|].
  assert (Q : not_word (returns_toks rs ++ ends_toks b ++ rest) \/ exists q, returns_toks rs ++ ends_toks b ++ rest = KWord "returns" :: q) by (destruct rs; [left; exact Nw|right; eexists; reflexivity]).
  assert (A : apart (returns_toks rs ++ ends_toks b ++ rest)) by (destruct rs; [exact Ap|split; [reflexivity|exact Logic.I]]).
  replace (fun_words f f (Marks "" false "" None []) (ws ++ returns_toks rs ++ ends_toks b ++ rest)) with (Some (Marks vis vir mut o mods, returns_toks rs ++ ends_toks b ++ rest)).
  - cbn [then_]. rewrite R; [|lia|exact Wr]. cbn [then_]. rewrite B; [reflexivity|lia|exact Logic.I].
  - symmetry. replace f with (c + Datatypes.S (f - c - 1)) at 1 by lia. rewrite W; [|lia|exact A]. apply words_end, Q.
Qed.

(** ** Members *)

Definition member_words : list string := ["constructor"; "receive"; "fallback"; "modifier"; "event"; "struct"; "enum"; "type"; "using"].
Definition top_words : list string := ["pragma"; "import"; "abstract"; "contract"; "interface"; "library"].

(** Where a variable begins. *)
Definition var_start (ts : list token) : bool :=
  match ts with
  | KWord w :: r => negb (smem w (member_words ++ top_words)) && (negb (smem w ["function"; "error"]) || sym_next r)
  | _ => false
  end.

Lemma type_start : forall t, is_type t = true -> spelled t = true -> forall w r, var_start (xtoks t ++ KSym w :: r) = true.
Proof.
  intros t. induction t using sexp_ind2; intros T Sp y r; try discriminate T; cbn [spelled] in Sp; andb; cbn [xtoks].
  - cbn [app var_start]. rewrite !(elementary_none x) by (assumption || reflexivity). reflexivity.
  - destruct (path_cons x Sp) as (p & l & _ & Hp & _ & ->). cbn [app var_start]. rewrite (name_no p (member_words ++ top_words) Hp eq_refl). destruct l; cbn [flat_map app sym_next]; apply orb_true_r.
  - reflexivity.
  - napp. auto.
  - reflexivity.
Qed.

Lemma state_start : forall v r, var_spelled v = true -> odd_type (sv_type v) = false -> var_start (var_toks v ++ KSym ";" :: r) = true.
Proof.
  intros v r H O. unfold var_spelled, type_spelled in H. andb. unfold var_toks. rewrite <- app_assoc. destruct (sv_type v) eqn:E; try discriminate; cbn [spelled] in *; andb; cbn [xtoks].
  - cbn [app var_start]. rewrite !(elementary_none x) by (assumption || reflexivity). reflexivity.
  - match goal with K : path_name x = true |- _ => destruct (path_cons x K) as (p & l & Ex & Hp & _ & ->) end. cbn [app var_start]. rewrite (name_no p (member_words ++ top_words) Hp eq_refl).
    destruct l as [|q l]; [|cbn [flat_map app sym_next]; apply orb_true_r]. 
    assert (X : x = p) by (rewrite (parts_join x), Ex; reflexivity). subst p. cbn [odd_type] in O. cbn [negb andb]. apply orb_true_iff. left. apply negb_true_iff.
    destruct (smem x ["function"; "error"]) eqn:M; [|reflexivity]. apply smem_In in M. destruct M as [<-|[<-|[]]]; [discriminate Hp|discriminate O].
  - reflexivity.
  - napp. apply type_start; [assumption|assumption].
  - reflexivity.
Qed.

Lemma member_variable : forall f ts, var_start ts = true -> member f ts = then_ (state_var f ts) (fun v r => Some (MVar v, r)).
Proof.
  intros f [|[w|s|s|s|s|s] r] H; try discriminate H. cbn [var_start] in H. andb. match goal with K : negb _ = true |- _ => apply negb_true_iff in K; rename K into M end.
  match goal with K : _ || _ = true |- _ => rename K into R end.
  assert (E : forall x, In x (member_words ++ top_words) -> (w =?s x) = false).
  { intros x I. apply eqb_not. intros ->. apply smem_In in I. congruence. }
  assert (C : smem w ["constructor"; "receive"; "fallback"] = false).
  { destruct (smem w ["constructor"; "receive"; "fallback"]) eqn:Q; [|reflexivity]. apply smem_In in Q. destruct Q as [<-|[<-|[<-|[]]]]; discriminate M. }
  apply orb_true_iff in R. unfold member. rewrite C, (E "modifier"), (E "event"), (E "struct"), (E "enum"), (E "type"), (E "using") by (cbn; tauto).
  destruct R as [R|R].
  - apply negb_true_iff in R. destruct (w =?s "function") eqn:E1; [seqb; discriminate R|]. destruct (w =?s "error") eqn:E2; [seqb; discriminate R|]. reflexivity.
  - destruct r as [|[] r]; try discriminate R. cbn [ident]. rewrite andb_false_r. destruct (w =?s "function"); reflexivity.
Qed.

Lemma for_ok : forall t g, maybe type_spelled t = true -> ok for_of (fun _ => True) (for_toks t g) (t, g).
Proof.
  intros t g H.
  assert (W : forall g rest, (let (g', r) := maybe_word ["global"] (ftoks g "global" ++ KSym ";" :: rest) in after (sym ";" r) (fun r => Some ((t, g' =?s "global"), r))) = Some ((t, g), rest)) by (intros [] rest; reflexivity).
  destruct t as [t|]; cbn [maybe] in H.
  - destruct (type_ok t H) as (N & T). exists N. intros f F rest _. unfold for_toks, for_of. unfold type_spelled in H. andb. napp. cbn [word String.eqb Ascii.eqb Bool.eqb after].
    rewrite type_not_sym by assumption. unfold type_of in T. rewrite T; [|exact F|].
    + cbn [then_]. apply W.
    + destruct g; [apply tstops_word; cbn; intuition discriminate|apply tstops_sym; discriminate].
  - exists 0. intros f _ rest _. unfold for_toks, for_of. napp. cbn [word sym String.eqb Ascii.eqb Bool.eqb after then_]. apply W.
Qed.

Lemma anonymous_ok : forall {B} (k : bool -> B) a rest,
  (let (a', r) := maybe_word ["anonymous"] (ftoks a "anonymous" ++ KSym ";" :: rest) in after (sym ";" r) (fun r => Some (k (a' =?s "anonymous"), r))) = Some (k a, rest).
Proof. intros B k [] rest; reflexivity. Qed.

Lemma using_ok : forall p r, path_name (fst p) = true -> between_ok "}" r -> using_fun (using_toks p ++ r) = Some (p, r).
Proof.
  intros (x, o) r H (q & B). unfold using_toks, using_fun. cbn [fst snd] in *. destruct o as [op|]; cbn [otoks]; rewrite <- app_assoc.
  - cbn [app]. rewrite path_ok; [reflexivity|exact H|exact Logic.I].
  - cbn [app]. rewrite path_ok; [|exact H|destruct B as [-> | ->]; discriminate]. cbn [then_]. destruct B as [-> | ->]; reflexivity.
Qed.

Lemma member_ok : forall m, member_spelled m = true -> ok member (fun _ => True) (mtoks m) m.
Proof.
  intros m H. destruct m; cbn [member_spelled] in H; andb; cbn [mtoks].
  - unfold state_spelled in H. andb. match goal with K : negb _ = true |- _ => apply negb_true_iff in K end. destruct (state_ok v) as (N & P); [assumption|assumption|].
    exists N. intros n F rest _. rewrite member_variable; [rewrite P; [reflexivity|exact F|exact Logic.I]|]. rewrite <- app_assoc. now apply state_start.
  - destruct (function_ok f H) as (N & P). exists N. intros n F rest _. specialize (P n F rest Logic.I).
    unfold fun_toks. fold (after_name f). unfold fun_spelled in H. andb. destruct (sf_kind f =?s "function") eqn:K.
    + seqb. match goal with E : sf_kind f = "function" |- _ => rewrite E in P end. cbn [app]. unfold member. cbn [String.eqb Ascii.eqb Bool.eqb]. rewrite ident_name by assumption. exact P.
    + andb. seqb. match goal with E : sf_name f = "" |- _ => rewrite E in P end. cbn [app]. match goal with E : smem (sf_kind f) _ = true |- _ => apply smem_In in E; cbn in E end.
      match goal with E : _ = sf_kind f \/ _ |- _ => destruct E as [E|[E|[E|[]]]]; rewrite <- E in *; exact P end.
  - destruct (params_ok ps) as (N1 & P); [assumption|]. destruct (body_ok body) as (N2 & B); [assumption|].
    destruct (fun_words_ok "" virtual "" override []) as (c & N3 & W); try reflexivity; [assumption|]. cbn [wtoks String.eqb app flat_map] in W. rewrite app_nil_r in W.
    exists (N1 + N2 + N3 + c + 1). intros n F rest _. destruct (ends_part body rest) as (Ap & Wr & Nw); [assumption|].
    replace ((KWord "modifier" :: KWord f :: params_toks ps ++ ftoks virtual "virtual" ++ override_toks override ++ ends_toks body) ++ rest)
      with (KWord "modifier" :: KWord f :: params_toks ps ++ (ftoks virtual "virtual" ++ override_toks override) ++ ends_toks body ++ rest) by (napp; reflexivity).
    unfold member. cbn [String.eqb Ascii.eqb Bool.eqb]. change (smem "modifier" ["constructor"; "receive"; "fallback"]) with false. cbv iota.
    rewrite ident_name by assumption. cbn [then_]. rewrite P; [|lia|exact Logic.I]. cbn [then_].
    replace (fun_words n n (Marks "" false "" None []) ((ftoks virtual "virtual" ++ override_toks override) ++ ends_toks body ++ rest)) with (Some (Marks "" virtual "" override [], ends_toks body ++ rest)).
    + cbn [then_]. rewrite B; [reflexivity|lia|exact Logic.I].
    + symmetry. replace n with (c + Datatypes.S (n - c - 1)) at 1 by lia. rewrite W; [|lia|exact Ap]. apply words_end. now left.
  - destruct (params_ok ps) as (N1 & P); [assumption|]. exists N1. intros n F rest _. 
    replace ((KWord "event" :: KWord f :: params_toks ps ++ ftoks anonymous "anonymous" ++ [KSym ";"]) ++ rest)
      with (KWord "event" :: KWord f :: params_toks ps ++ ftoks anonymous "anonymous" ++ KSym ";" :: rest) by (napp; reflexivity).
    unfold member. cbn [String.eqb Ascii.eqb Bool.eqb]. change (smem "event" ["constructor"; "receive"; "fallback"]) with false. cbv iota.
    rewrite ident_name by assumption. cbn [then_]. rewrite P; [|lia|exact Logic.I]. cbn [then_]. exact (anonymous_ok (fun a => MEvent f ps a) anonymous rest).
  - destruct (params_ok ps) as (N1 & P); [assumption|]. exists N1. intros n F rest _. 
    replace ((KWord "error" :: KWord f :: params_toks ps ++ [KSym ";"]) ++ rest) with (KWord "error" :: KWord f :: params_toks ps ++ KSym ";" :: rest) by (napp; reflexivity).
    specialize (P n F (KSym ";" :: rest) Logic.I).
    unfold member. cbn [String.eqb Ascii.eqb Bool.eqb]. change (smem "error" ["constructor"; "receive"; "fallback"]) with false. cbv iota.
    unfold params_toks in *. cbn [app String.eqb Ascii.eqb Bool.eqb andb] in *. rewrite ident_name by assumption. cbn [then_]. rewrite P. reflexivity.
  - match goal with K : forallb param_spelled l = true |- _ => rename K into Sl end. rewrite forallb_forall in Sl. destruct (ok_all param ended var_toks l) as (N & P); [intros v I; now apply param_ok, Sl|].
    exists (N + Datatypes.S (List.length l)). intros n F rest _. napp. unfold member. cbn [String.eqb Ascii.eqb Bool.eqb]. change (smem "struct" ["constructor"; "receive"; "fallback"]) with false. cbv iota.
    cbn [andb]. rewrite ident_name by assumption. cbn [then_ sym String.eqb Ascii.eqb Bool.eqb after].
    rewrite (until_ok _ "}" (fun v => var_toks v ++ [KSym ";"]) (fun _ => True) l rest).
    + reflexivity.
    + intros v r I. rewrite <- app_assoc. apply var_not_sym. specialize (Sl v I). now destruct (param_toks v Sl) as (_ & ? & _).
    + exact Logic.I.
    + intros; exact Logic.I.
    + intros v r I _. rewrite <- app_assoc. rewrite P; [reflexivity|exact I|lia|reflexivity].
    + lia.
  - exists (List.length l). intros n F rest _. napp. unfold member. cbn [String.eqb Ascii.eqb Bool.eqb]. change (smem "enum" ["constructor"; "receive"; "fallback"]) with false. cbv iota.
    cbn [andb]. rewrite ident_name by assumption. cbn [then_ sym String.eqb Ascii.eqb Bool.eqb after]. match goal with K : forallb name l = true |- _ => rename K into Sl end. rewrite forallb_forall in Sl.
    rewrite (items_ok ident "}" (fun x => [KWord x]) l).
    + reflexivity.
    + discriminate.
    + reflexivity.
    + intros x r I _. cbn [app]. now apply ident_name, Sl.
    + exact F.
  - match goal with K : type_spelled _ = true |- _ => destruct (type_ok _ K) as (N & T) end. unfold type_of in T. exists N. intros n F rest _. napp.
    unfold member. cbn [String.eqb Ascii.eqb Bool.eqb]. change (smem "type" ["constructor"; "receive"; "fallback"]) with false. cbv iota.
    cbn [andb]. rewrite ident_name by assumption. cbn [then_ word String.eqb Ascii.eqb Bool.eqb after]. rewrite T; [reflexivity|exact F|apply tstops_sym; discriminate].
  - destruct (for_ok t global) as (N & P); [assumption|]. exists N. intros n F rest _. destruct lib; try discriminate. cbn [path_spelled id_toks] in *.
    replace ((KWord "using" :: path_toks x ++ for_toks t global) ++ rest) with (KWord "using" :: path_toks x ++ for_toks t global ++ rest) by (napp; reflexivity).
    unfold member. cbn [String.eqb Ascii.eqb Bool.eqb]. change (smem "using" ["constructor"; "receive"; "fallback"]) with false. cbv iota. cbn [andb].
    replace (sym "{" (path_toks x ++ for_toks t global ++ rest)) with (@None (list token)) by (destruct (path_cons x H) as (p & l & _ & _ & _ & ->); reflexivity).
    rewrite path_ok; [|assumption|exact Logic.I]. cbn [then_]. rewrite P; [reflexivity|exact F|exact Logic.I].
  - destruct (for_ok t global) as (N & P); [assumption|]. exists (N + List.length l). intros n F rest _.
    replace ((KWord "using" :: KSym "{" :: commas (map using_toks l) ++ KSym "}" :: for_toks t global) ++ rest)
      with (KWord "using" :: KSym "{" :: commas (map using_toks l) ++ KSym "}" :: for_toks t global ++ rest) by (napp; reflexivity).
    unfold member. cbn [String.eqb Ascii.eqb Bool.eqb]. change (smem "using" ["constructor"; "receive"; "fallback"]) with false. cbv iota. cbn [andb].
    cbn [sym String.eqb Ascii.eqb Bool.eqb]. match goal with K : forallb _ l = true |- _ => rename K into Sl end. rewrite forallb_forall in Sl.
    rewrite (items1_ok using_fun "}" using_toks l).
    + cbn [then_]. rewrite P; [reflexivity|lia|exact Logic.I].
    + intros ->. discriminate.
    + discriminate.
    + intros p r I B. apply using_ok; [|exact B]. specialize (Sl p I). cbv beta in Sl. andb. assumption.
    + lia.
Qed.

(** How the tokens of a member begin. *)
Lemma member_head : forall m r, member_spelled m = true -> exists w q, mtoks m ++ r = KWord w :: q /\ smem w top_words = false.
Proof.
  intros m r H. destruct m; try (eexists _, _; split; reflexivity).
  - cbn [member_spelled mtoks] in *. unfold state_spelled in H. andb. match goal with K : negb _ = true |- _ => apply negb_true_iff in K end.
    pose proof (state_start v r) as S. rewrite <- app_assoc. cbn [app]. specialize (S ltac:(assumption) ltac:(assumption)).
    destruct (var_toks v ++ KSym ";" :: r) as [|[w|s|s|s|s|s] q]; try discriminate S. exists w, q. split; [reflexivity|]. cbn [var_start] in S. andb.
    match goal with K : negb (smem w _) = true |- _ => apply negb_true_iff in K; rename K into M end. destruct (smem w top_words) eqn:E; [|reflexivity].
    apply smem_In in E. assert (I : In w (member_words ++ top_words)) by (apply in_or_app; now right). apply smem_In in I. congruence.
  - cbn [member_spelled mtoks] in *. unfold fun_spelled in H. andb. unfold fun_toks. destruct (sf_kind f =?s "function").
    + eexists _, _; split; reflexivity.
    + andb. match goal with E : smem (sf_kind f) _ = true |- _ => apply smem_In in E; cbn in E end. eexists _, _. split; [reflexivity|].
      match goal with E : _ = sf_kind f \/ _ |- _ => destruct E as [E|[E|[E|[]]]]; rewrite <- E; reflexivity end.
Qed.

(** ** Source files *)

Lemma pieces_ok : forall l r, match r with KNum _ :: _ => False | _ => True end -> version_pieces (map KNum l ++ r) = (l, r).
Proof.
  induction l as [|p l IH]; intros r H.
  - destruct r as [|[] r]; try reflexivity. destruct H.
  - cbn [map app version_pieces]. now rewrite IH.
Qed.

Lemma version_ok : forall v r, blank_or (fun s => smem s version_signs) (fst v) = true -> pieces_spelled (snd v) = true ->
  match r with KNum _ :: _ => False | _ => True end -> version (version_toks v ++ r) = Some (v, r).
Proof.
  intros (s, l) r H P N. unfold version_toks. cbn [fst snd] in *. destruct (blank_cases _ _ H) as [->|(Ne & M)].
  - cbn [String.eqb app]. destruct l as [|p l]; [discriminate P|]. cbn [map app version].
    change (KNum p :: map KNum l ++ r) with (map KNum (p :: l) ++ r). rewrite pieces_ok by exact N. reflexivity.
  - rewrite eqb_not by exact Ne. cbn [app version]. rewrite M, pieces_ok by exact N. reflexivity.
Qed.

Lemma version_begins : forall v r, blank_or (fun s => smem s version_signs) (fst v) = true -> pieces_spelled (snd v) = true -> sym ";" (version_toks v ++ r) = None.
Proof.
  intros (s, l) r H P. unfold version_toks. cbn [fst snd] in *. destruct (blank_cases _ _ H) as [->|(Ne & M)].
  - destruct l as [|p l]; [discriminate P|]. reflexivity.
  - rewrite eqb_not by exact Ne. apply smem_In in M. cbn [app sym]. rewrite eqb_not; [reflexivity|]. intros ->. cbn in M. intuition discriminate.
Qed.

Lemma versions_ok : forall l rest,
  forallb (fun v => blank_or (fun s => smem s version_signs) (fst v) && pieces_spelled (snd v)) l = true -> forallb (fun v => negb (fst v =?s "")) (tl l) = true ->
  forall g, List.length l < g -> until g version ";" (flat_map version_toks l ++ KSym ";" :: rest) = Some (l, rest).
Proof.
  intros [|v l] rest H T g G; [destruct g; [lia|reflexivity]|]. cbn [tl forallb] in *. andb. destruct g as [|g]; [lia|]. cbn [flat_map until]. rewrite <- app_assoc.
  rewrite version_begins by assumption.
  match goal with K : forallb _ l = true, L : forallb (fun v => negb _) l = true |- _ => rewrite forallb_forall in K, L; rename K into A, L into B end.
  rewrite version_ok; [|assumption|assumption|].
  - cbn [then_]. rewrite (until_ok version ";" version_toks (fun ts => match ts with KNum _ :: _ => False | _ => True end) l rest).
    + reflexivity.
    + intros a r I. specialize (A a I). cbv beta in A. andb. now apply version_begins.
    + exact Logic.I.
    + intros a r I. specialize (B a I). cbv beta in B. apply negb_true_iff in B. unfold version_toks. rewrite B. exact Logic.I.
    + intros a r I C. specialize (A a I). cbv beta in A. andb. now apply version_ok.
    + cbn in G. lia.
  - destruct l as [|b l]; [exact Logic.I|]. specialize (B b (or_introl eq_refl)). cbv beta in B. apply negb_true_iff in B. cbn [flat_map]. unfold version_toks at 1. rewrite B. exact Logic.I.
Qed.

Lemma import_ok : forall p r, name (fst p) = true -> maybe name (snd p) = true -> between_ok "}" r -> import_name (import_toks p ++ r) = Some (p, r).
Proof.
  intros (x, o) r H O (q & B). unfold import_toks, import_name. cbn [fst snd] in *. cbn [app]. rewrite ident_name by exact H. cbn [then_].
  destruct o as [a|]; cbn [alias_toks otoks app maybe] in *.
  - cbn [word String.eqb Ascii.eqb Bool.eqb]. rewrite ident_name by exact O. reflexivity.
  - destruct B as [-> | ->]; reflexivity.
Qed.

Lemma top_member : forall f w r, smem w top_words = false -> top_level f (KWord w :: r) = then_ (member f (KWord w :: r)) (fun m r => Some (PMember m, r)).
Proof.
  intros f w r M. assert (E : forall x, In x top_words -> (w =?s x) = false).
  { intros x I. apply eqb_not. intros ->. apply smem_In in I. congruence. }
  unfold top_level. rewrite (E "pragma"), (E "import") by (cbn; tauto). 
  rewrite (maybe_word_none ["abstract"]).
  - rewrite (maybe_word_none ["contract"; "interface"; "library"]); [reflexivity|].
    destruct (smem w ["contract"; "interface"; "library"]) eqn:Q; [|reflexivity]. apply smem_In in Q. destruct Q as [<-|[<-|[<-|[]]]]; discriminate M.
  - destruct (smem w ["abstract"]) eqn:Q; [|reflexivity]. apply smem_In in Q. destruct Q as [<-|[]]; discriminate M.
Qed.

Lemma members_ok : forall l, forallb member_spelled l = true -> exists N, forall f, N <= f -> forall rest,
  until f (member f) "}" (flat_map mtoks l ++ KSym "}" :: rest) = Some (l, rest).
Proof.
  intros l H. rewrite forallb_forall in H. destruct (ok_all member (fun _ => True) mtoks l) as (N & P); [intros m I; now apply member_ok, H|].
  exists (N + Datatypes.S (List.length l)). intros f F rest. apply (until_ok (member f) "}" mtoks (fun _ => True)).
  - intros m r I. destruct (member_head m r (H m I)) as (w & q & -> & _). reflexivity.
  - exact Logic.I.
  - intros; exact Logic.I.
  - intros m r I _. apply P; [exact I|lia|exact Logic.I].
  - lia.
Qed.

Lemma bases_ok : forall l, forallb call_spelled l = true -> exists N, forall f, N <= f -> forall rest,
  match word "is" (match l with [] => [] | _ => KWord "is" :: commas (map call_toks l) end ++ KSym "{" :: rest) with
  | Some r => items1 f (invocation f) "{" r
  | None => after (sym "{" (match l with [] => [] | _ => KWord "is" :: commas (map call_toks l) end ++ KSym "{" :: rest)) (fun r => Some ([], r))
  end = Some (l, rest).
Proof.
  intros l H. rewrite forallb_forall in H. destruct (ok_all invocation apart call_toks l) as (N & P); [intros m I; now apply invocation_ok, H|].
  exists (N + List.length l). intros f F rest. destruct l as [|m l]; [reflexivity|]. cbn [app word String.eqb Ascii.eqb Bool.eqb]. apply items1_ok.
  - discriminate.
  - discriminate.
  - intros i r I (q & B). apply P; [exact I|lia|]. destruct B as [-> | ->]; split; reflexivity || discriminate.
  - lia.
Qed.

Lemma top_ok : forall p, top_spelled p = true -> ok top_level (fun _ => True) (ptoks p) p.
Proof.
  intros p H. destruct p; cbn [top_spelled] in H; andb; cbn [ptoks].
  - exists 0. intros n _ rest _. match goal with K : negb _ = true |- _ => apply negb_true_iff in K; rename K into E end.
    cbn [app top_level String.eqb Ascii.eqb Bool.eqb]. rewrite E, ident_name by assumption. reflexivity.
  - exists (Datatypes.S (List.length l)). intros n F rest _. napp. cbn [app top_level String.eqb Ascii.eqb Bool.eqb]. rewrite versions_ok; [reflexivity|assumption|assumption|lia].
  - exists (List.length names). intros n F rest _. destruct names as [|x names].
    + cbn [app top_level String.eqb Ascii.eqb Bool.eqb]. destruct alias as [a|]; cbn [alias_toks otoks app maybe] in *.
      * cbn [word String.eqb Ascii.eqb Bool.eqb]. rewrite ident_name by assumption. reflexivity.
      * reflexivity.
    + destruct alias as [a|]; [discriminate|]. cbn [alias_toks otoks app].
      cbn [top_level String.eqb Ascii.eqb Bool.eqb sym after]. napp.
      match goal with K : forallb _ (x :: names) = true |- _ => rename K into Sl end. rewrite forallb_forall in Sl.
      rewrite (items1_ok import_name "}" import_toks (x :: names)).
      * reflexivity.
      * discriminate.
      * discriminate.
      * intros p r I B. specialize (Sl p I). cbv beta in Sl. andb. now apply import_ok.
      * exact F.
  - destruct (members_ok l) as (N1 & M); [assumption|]. destruct (bases_ok bases) as (N2 & B); [assumption|]. exists (N1 + N2). intros n F rest _.
    match goal with K : smem kind _ = true |- _ => apply smem_In in K; rename K into Kd end.
    replace ((ftoks abstract "abstract" ++ KWord kind :: KWord f :: match bases with [] => [] | _ => KWord "is" :: commas (map call_toks bases) end ++ KSym "{" :: flat_map mtoks l ++ [KSym "}"]) ++ rest)
      with (ftoks abstract "abstract" ++ KWord kind :: KWord f :: match bases with [] => [] | _ => KWord "is" :: commas (map call_toks bases) end ++ KSym "{" :: flat_map mtoks l ++ KSym "}" :: rest)
      by (napp; reflexivity).
    assert (Q : forall a, then_ (ident (KWord f :: match bases with [] => [] | _ => KWord "is" :: commas (map call_toks bases) end ++ KSym "{" :: flat_map mtoks l ++ KSym "}" :: rest)) (fun f r =>
            then_ match word "is" r with
                  | Some r => items1 n (invocation n) "{" r
                  | None => after (sym "{" r) (fun r => Some ([], r))
                  end (fun bases r =>
              then_ (until n (member n) "}" r) (fun l r => Some (PContract a kind f bases l, r)))) = Some (PContract a kind f bases l, rest)).
    { intros a. rewrite ident_name by assumption. cbn [then_]. rewrite B by lia. cbn [then_]. rewrite M by lia. reflexivity. }
    destruct Kd as [<-|[<-|[<-|[]]]]; destruct abstract; cbn [ftoks app]; exact (Q _).
  - destruct (member_ok m H) as (N & P). exists N. intros n F rest _. specialize (P n F rest Logic.I). destruct (member_head m rest H) as (w & q & E & W).
    rewrite E in *. rewrite top_member by exact W. now rewrite P.
Qed.

Lemma tops_ok : forall l, forallb top_spelled l = true -> exists N, forall f, N <= f -> tops f f (flat_map ptoks l) = Some l.
Proof.
  intros l H. rewrite forallb_forall in H. destruct (ok_all top_level (fun _ => True) ptoks l) as (N & P); [intros p I; now apply top_ok, H|].
  exists (N + Datatypes.S (List.length l)). intros f F.
  assert (G : forall k g, N <= k -> List.length l < g -> tops g k (flat_map ptoks l) = Some l); [|apply G; lia].
  clear f F. intros k g K. revert g. induction l as [|p l IH]; intros g G; (destruct g as [|g]; [cbn in G; lia|]); [reflexivity|].
  assert (Ne : flat_map ptoks (p :: l) <> []).
  { cbn [flat_map]. specialize (H p (or_introl eq_refl)). destruct p; try (cbn [ptoks]; destruct abstract; discriminate); try discriminate.
    destruct (member_head m (flat_map ptoks l) H) as (w & q & E & _). cbn [ptoks]. rewrite E. discriminate. }
  cbn [tops]. destruct (flat_map ptoks (p :: l)) as [|t ts] eqn:E; [congruence|]. rewrite <- E. cbn [flat_map].
  rewrite P; [|now left|exact K|exact Logic.I]. cbn [then_]. rewrite IH; [reflexivity| | |cbn in G; lia].
  - intros q I. apply H. now right.
  - intros q I. apply P. now right.
Qed.
