(** Statements are read back from their tokens. *)
From Coq Require Import String Ascii List NArith ZArith Bool Lia.
From Verif Require Import Base Json SpecLiteral SpecVyText SpecSolText SpecSolRead LitFacts PathFacts SolReadLex SolReadToks SolReadToks2 SolReadParse SolReadExp SolReadVar SolTextClaims SolTextStmt.
From Verif Require SolText.
Import ListNotations.
Open Scope string_scope.
Open Scope list_scope.

(** ** How statements begin *)

Definition stmt_words : list string :=
  ["unchecked"; "if"; "while"; "do"; "for"; "return"; "emit"; "break"; "continue"; "_"; "try"; "else"; "catch"; "assembly"].

Lemma stmt_words_reserved : forallb reserved stmt_words = true.
Proof. reflexivity. Qed.
Lemma stmt_words_elementary : forallb (fun w => negb (elementary w)) stmt_words = true.
Proof. reflexivity. Qed.
Lemma elementary_none : forall x l, elementary x = true -> forallb (fun w => negb (elementary w)) l = true -> smem x l = false.
Proof.
  intros x l E F. destruct (smem x l) eqn:M; [|reflexivity]. apply smem_In in M. rewrite forallb_forall in F. specialize (F x M). rewrite E in F. discriminate F.
Qed.

Definition sym_next (ts : list token) : bool := match ts with KSym _ :: _ => true | _ => false end.

(** Where an expression begins. *)
Definition plain (ts : list token) : bool :=
  match ts with
  | KSym s :: _ => negb (smem s ["{"; "}"])
  | KWord w :: r => smem w ["new"; "delete"] || negb (smem w ("mapping" :: "function" :: stmt_words)) && sym_next r
  | [] => false
  | _ => true
  end.

Lemma exp_plain : forall e, spelled e = true -> is_type e = false -> forall s r, plain (xtoks e ++ KSym s :: r) = true.
Proof.
  intros e. induction e using sexp_ind2; intros Sp Ty y rr; try discriminate Ty; cbn [spelled] in Sp; cbn [xtoks]; andb;
    repeat match goal with K : negb _ = true |- _ => apply negb_true_iff in K end.
  - cbn [app plain sym_next]. apply orb_true_iff. right. rewrite andb_true_r. apply negb_true_iff. apply orb_true_iff in Sp. destruct Sp as [N|T].
    + apply name_no; [exact N|reflexivity].
    + seqb. reflexivity.
  - destruct (smem s ["true"; "false"]) eqn:M; [|reflexivity]. apply smem_In in M. destruct M as [<-|[<-|[]]]; destruct u; discriminate Sp || reflexivity.
  - reflexivity.
  - reflexivity.
  - reflexivity.
  - rewrite <- app_assoc. cbn [app]. auto.
  - match goal with K : smem op _ = true |- _ => apply smem_In in K; cbn in K end.
    repeat match goal with K : _ = op \/ _ |- _ => destruct K as [<-|K]; [reflexivity|] end. contradiction.
  - rewrite <- app_assoc. cbn [app]. auto.
  - rewrite <- app_assoc. cbn [app]. auto.
  - rewrite <- app_assoc. cbn [app]. auto.
  - rewrite <- app_assoc. cbn [app]. auto.
  - rewrite <- app_assoc. cbn [app]. auto.
  - rewrite <- app_assoc. cbn [app]. auto.
  - rewrite <- app_assoc. cbn [app]. auto.
  - rewrite <- app_assoc. cbn [app]. auto.
  - rewrite <- app_assoc. cbn [app]. auto.
  - reflexivity.
  - reflexivity.
  - reflexivity.
  - cbn [app plain sym_next]. apply orb_true_iff. right. rewrite andb_true_r. apply negb_true_iff. apply orb_true_iff in Sp. destruct Sp as [N|T].
    + apply elementary_none; [exact N|reflexivity].
    + seqb. reflexivity.
Qed.

Lemma plain_type_begins : forall ts, plain ts = true -> type_begins ts = false.
Proof.
  intros [|[w|s|s|s|s|s] r] H; try reflexivity. cbn [plain type_begins] in *. apply orb_true_iff in H. destruct H as [H|H].
  - apply smem_In in H. destruct H as [<-|[<-|[]]]; reflexivity.
  - andb. match goal with K : negb _ = true |- _ => apply negb_true_iff in K end.
    cbn [smem existsb] in *. repeat match goal with K : _ || _ = false |- _ => apply orb_false_iff in K; destruct K end.
    destruct r as [|[]]; try discriminate. rewrite String.eqb_sym.
    repeat match goal with K : (_ =?s _) = false |- _ => rewrite String.eqb_sym in K end.
    destruct (w =?s "mapping") eqn:E1; [seqb; discriminate|]. destruct (w =?s "function") eqn:E2; [seqb; discriminate|]. rewrite String.eqb_sym, E1. apply andb_false_r.
Qed.

(** Where a declaration or an expression begins. *)
Definition simple_start (ts : list token) : bool :=
  match ts with
  | KSym s :: _ => negb (smem s ["{"; "}"])
  | KWord w :: r => negb (smem w stmt_words) && (negb (w =?s "revert") || match r with KWord _ :: _ => false | _ => true end)
  | [] => false
  | _ => true
  end.

Lemma plain_simple : forall ts, plain ts = true -> simple_start ts = true.
Proof.
  intros [|[w|s|s|s|s|s] r] H; try reflexivity; try exact H. cbn [plain simple_start] in *. apply orb_true_iff in H. destruct H as [H|H].
  - apply smem_In in H. destruct H as [<-|[<-|[]]]; reflexivity.
  - andb. match goal with K : negb _ = true |- _ => apply negb_true_iff in K; cbn [smem existsb] in K; apply orb_false_iff in K; destruct K as (_ & K);
      apply orb_false_iff in K; destruct K as (_ & K); change (smem w stmt_words = false) in K; rewrite K end.
    destruct r as [|[]]; try discriminate. rewrite orb_true_r. reflexivity.
Qed.

Lemma stmt_simple : forall f ts, simple_start ts = true -> stmt (Datatypes.S f) ts = simple_stmt f ts.
Proof.
  intros f [|[w|s|s|s|s|s] r] H; try reflexivity.
  - cbn [simple_start] in H. andb. match goal with K : negb _ = true |- _ => apply negb_true_iff in K; rename K into M end.
    match goal with K : _ || _ = true |- _ => rename K into R end.
    assert (E : forall x, In x stmt_words -> (w =?s x) = false).
    { intros x I. apply eqb_not. intros ->. apply smem_In in I. congruence. }
    cbn [stmt]. rewrite (E "unchecked"), (E "if"), (E "while"), (E "do"), (E "for"), (E "return"), (E "emit"), (E "try") by (cbn; tauto).
    replace (smem w ["break"; "continue"; "_"]) with false.
    2:{ symmetry. destruct (smem w ["break"; "continue"; "_"]) eqn:Q; [|reflexivity]. apply smem_In in Q. destruct Q as [<-|[<-|[<-|[]]]]; discriminate M. }
    replace ((w =?s "revert") && match r with KWord _ :: _ => true | _ => false end) with false; [reflexivity|].
    symmetry. apply orb_true_iff in R. destruct R as [R|R]; [apply negb_true_iff in R; now rewrite R|]. destruct r as [|[]]; try discriminate R; apply andb_false_r.
  - cbn [simple_start] in H. apply negb_true_iff in H. cbn [stmt]. destruct (s =?s "{") eqn:E; [seqb; discriminate H|reflexivity].
Qed.

Lemma simple_not : forall w ts, In w stmt_words -> simple_start ts = true -> word w ts = None.
Proof.
  intros w [|[x|s|s|s|s|s] r] I H; try reflexivity. cbn [simple_start word] in *. andb. destruct (x =?s w) eqn:E; [|reflexivity]. seqb. apply smem_In in I. rewrite I in *. discriminate.
Qed.
Lemma simple_not_brace : forall ts, simple_start ts = true -> sym "}" ts = None.
Proof.
  intros [|[x|s|s|s|s|s] r] H; try reflexivity. cbn [simple_start sym] in *. destruct (s =?s "}") eqn:E; [|reflexivity]. seqb. discriminate H.
Qed.

(** ** Expressions as statements *)

Lemma exp_not_local : forall e, exp_spelled e = true -> exists N, forall f, N <= f -> forall s r, stops 3 (KSym s :: r) ->
  local_var f (xtoks e ++ KSym s :: r) = None.
Proof.
  intros e H. destruct (exp_ok e H) as (N & X). unfold exp_spelled in H. andb. exists N. intros f F s r St. unfold local_var.
  rewrite plain_type_begins by (apply exp_plain; [assumption|now apply negb_true_iff]). unfold expression in X. rewrite X; [reflexivity|exact F|exact St].
Qed.

Lemma tuple_head : forall e, spelled e = true -> is_type e = false ->
  (forall r, sym "(" (xtoks e ++ r) = None) \/ exists l more, xtoks e = xtoks (XTuple l) ++ more /\ spelled (XTuple l) = true.
Proof.
  assert (A : forall ts more e, ts = xtoks e ++ more ->
    (forall r, sym "(" (xtoks e ++ r) = None) \/ (exists l m, xtoks e = xtoks (XTuple l) ++ m /\ spelled (XTuple l) = true) ->
    (forall r, sym "(" (ts ++ r) = None) \/ (exists l m, ts = xtoks (XTuple l) ++ m /\ spelled (XTuple l) = true)).
  { intros ts more e -> [L|(l & m & E & S)]; [left; intros r; rewrite <- app_assoc; apply L|right; exists l, (m ++ more); rewrite E, app_assoc; auto]. }
  intros e. induction e using sexp_ind2; intros Sp Ty; try discriminate Ty.
  all: try (left; intros r; reflexivity).
  all: try (cbn [spelled] in Sp; andb; repeat match goal with K : negb _ = true |- _ => apply negb_true_iff in K end;
    first [eapply A; [cbn [xtoks]; reflexivity|solve [auto]]|eapply A with (more := _ :: _); [cbn [xtoks]; reflexivity|solve [auto]]]).
  - left. intros r. cbn [xtoks]. destruct (smem s ["true"; "false"]); reflexivity.
  - left. intros r. cbn [spelled xtoks] in *. andb. match goal with K : smem op _ = true |- _ => apply smem_In in K; cbn in K end.
    repeat match goal with K : _ = op \/ _ |- _ => destruct K as [<-|K]; [reflexivity|] end. contradiction.
  - right. exists l, []. rewrite app_nil_r. auto.
Qed.

Lemma commas_cons : forall a b l, commas (a :: b :: l) = a ++ KSym "," :: commas (b :: l).
Proof. reflexivity. Qed.

Definition none {A} (o : option A) : bool := match o with Some _ => true | None => false end.

Lemma tuple_not_locals : forall l, spelled (XTuple l) = true -> exists N, forall f, N <= f -> forall g r,
  match items1 g (hole (local_var f) ")") ")" (commas (map (otoks xtoks) l) ++ KSym ")" :: r) with Some (l, _) => existsb none l = false | None => True end.
Proof.
  intros l Sp. cbn [spelled] in Sp. andb.
  match goal with K : forallb _ l = true |- _ => rename K into F end. 
  assert (C : exists N, forall f, N <= f -> forall e, In (Some e) l -> forall s r, stops 3 (KSym s :: r) -> local_var f (xtoks e ++ KSym s :: r) = None).
  { clear - F. induction l as [|o l IH]; [exists 0; intros f _ e []|]. cbn [forallb] in F. andb. destruct IH as (N1 & I); [assumption|]. destruct o as [e|].
    - destruct (exp_not_local e) as (N2 & X); [assumption|]. exists (N1 + N2). intros f Hf e' [E|E] s r St; [injection E as <-; apply X; [lia|exact St]|apply I; [lia|exact E|exact St]].
    - exists N1. intros f Hf e' [E|E] s r St; [discriminate E|]. now apply I. }
  destruct C as (N & C). exists N. intros f Hf. specialize (C f Hf). clear H Hf.
  assert (Cl : forall e, In (Some e) l -> forall r, sym "," (xtoks e ++ r) = None /\ sym ")" (xtoks e ++ r) = None).
  { intros e I r. rewrite forallb_forall in F. specialize (F _ I). split; apply exp_not_sym; try exact F; reflexivity. }
  clear F. revert C Cl. destruct l as [|o l]; intros C Cl g r.
  { destruct g as [|g]; [exact Logic.I|]. reflexivity. }
  revert o C Cl g. induction l as [|p l IH]; intros o C Cl g; (destruct g as [|g]; [exact Logic.I|]).
  - unfold commas. cbn [map tjoin]. destruct o as [e|].
    + cbn [otoks items1]. unfold hole. destruct (Cl e (or_introl eq_refl) (KSym ")" :: r)) as (-> & ->). rewrite C; [exact Logic.I|now left|exact Logic.I].
    + reflexivity.
  - cbn [map]. rewrite commas_cons, <- app_assoc. cbn [app]. destruct o as [e|].
    + cbn [otoks items1]. unfold hole. destruct (Cl e (or_introl eq_refl) (KSym "," :: commas (otoks xtoks p :: map (otoks xtoks) l) ++ KSym ")" :: r)) as (-> & ->).
      rewrite C; [exact Logic.I|now left|exact Logic.I].
    + cbn [otoks app items1]. unfold hole at 1. cbn [sym String.eqb Ascii.eqb Bool.eqb then_ after].
      specialize (IH p (fun e I => C e (or_intror I)) (fun e I => Cl e (or_intror I)) g). cbn [map] in IH.
      destruct (items1 g (hole (local_var f) ")") ")" (commas (otoks xtoks p :: map (otoks xtoks) l) ++ KSym ")" :: r)) as [(l', r')|]; [|exact Logic.I].
      cbn [then_ existsb none orb]. exact IH.
Qed.

Lemma exp_not_locals : forall e, exp_spelled e = true -> exists N, forall f, N <= f -> forall r, local_vars f (xtoks e ++ r) = None.
Proof.
  intros e H. unfold exp_spelled in H. andb. match goal with K : negb _ = true |- _ => apply negb_true_iff in K; rename K into T end.
  destruct (tuple_head e) as [L|(l & more & E & S)]; auto.
  - exists 0. intros f _ r. unfold local_vars. now rewrite L.
  - destruct (tuple_not_locals l S) as (N & X). exists N. intros f F r. unfold local_vars. rewrite E. cbn [xtoks]. 
    change (KSym "(" :: tjoin [KSym ","] (map (otoks xtoks) l) ++ [KSym ")"]) with (KSym "(" :: commas (map (otoks xtoks) l) ++ [KSym ")"]).
    napp. cbn [sym String.eqb Ascii.eqb Bool.eqb after]. specialize (X f F f (more ++ r)).
    destruct (items1 f (hole (local_var f) ")") ")" (commas (map (otoks xtoks) l) ++ KSym ")" :: more ++ r)) as [(l', r')|]; [|reflexivity].
    cbn [then_]. unfold none in X. now rewrite X.
Qed.

(** ** Declarations and expressions *)

Lemma value_ok : forall e f r (c : option sexp -> sstmt) N, (forall f, N <= f -> forall rest, stops 3 rest -> expr f 3 (xtoks e ++ rest) = Some (e, rest)) -> N <= f ->
  then_ (expr f 3 (xtoks e ++ KSym ";" :: r)) (fun e r => after (sym ";" r) (fun r => Some (c (Some e), r))) = Some (c (Some e), r).
Proof. intros e f r c N X F. rewrite X; [reflexivity|exact F|exact Logic.I]. Qed.

Lemma local_start : forall v r, local_spelled v = true -> simple_start (var_toks v ++ r) = true.
Proof.
  intros v r H. pose proof (local_words v H) as (w & q & Ew & _). unfold local_spelled, param_spelled, var_spelled, type_spelled in H. andb.
  unfold var_toks. rewrite Ew. rewrite <- !app_assoc. cbn [app]. match goal with K : negb (odd_type _) = true |- _ => rename K into O end.
  match goal with K : is_type _ = true, L : spelled _ = true |- _ => revert K L O end. clear. generalize (q ++ value_toks (sv_value v) ++ r). generalize (sv_type v). clear.
  assert (S : forall t s r, is_type t = true -> spelled t = true -> simple_start (xtoks t ++ KSym s :: r) = true).
  { intros t. induction t using sexp_ind2; intros y r T Sp; try discriminate T; cbn [spelled] in Sp; andb; cbn [xtoks].
    - cbn [app simple_start]. rewrite (elementary_none x stmt_words) by (assumption || reflexivity).
      match goal with K : elementary x = true |- _ => rewrite (elementary_no x "revert" K eq_refl) end. reflexivity.
    - destruct (path_cons x Sp) as (p & l & _ & Hp & _ & ->). cbn [app simple_start]. rewrite (name_no p stmt_words Hp eq_refl). destruct l; cbn; apply orb_true_r.
    - reflexivity.
    - napp. auto.
    - reflexivity. }
  intros t ts T Sp O. destruct t; try discriminate T.
  - cbn [spelled] in Sp. andb. cbn [xtoks app simple_start]. rewrite (elementary_none x stmt_words) by (assumption || reflexivity).
    match goal with K : elementary x = true |- _ => rewrite (elementary_no x "revert" K eq_refl) end. reflexivity.
  - cbn [spelled] in Sp. cbn [xtoks]. destruct (path_cons x Sp) as (p & l & E & Hp & _ & ->). cbn [app simple_start]. rewrite (name_no p stmt_words Hp eq_refl).
    destruct l as [|q l]; [|cbn; apply orb_true_r]. cbn [negb andb]. apply orb_true_iff. left. 
    assert (X : x = p) by (rewrite (parts_join x), E; reflexivity). subst p. cbn in O. apply negb_true_iff in O. apply orb_false_iff in O. destruct O as (_ & O).
    apply orb_false_iff in O. destruct O as (O & _). rewrite String.eqb_sym, O || rewrite O. reflexivity.
  - reflexivity.
  - cbn [spelled] in Sp. andb. cbn [xtoks]. napp. apply S; assumption.
  - reflexivity.
Qed.

Lemma local_no_paren : forall v f r, local_spelled v = true -> local_vars f (var_toks v ++ r) = None.
Proof.
  intros v f r H. unfold local_vars. rewrite var_not_sym; [reflexivity|]. apply local_param in H. now destruct (param_toks v H) as (_ & S & _).
Qed.

Lemma hole_ok : forall l, forallb (maybe local_spelled) l = true -> exists N, forall f, N <= f -> forall o rest, In o l -> between_ok ")" rest ->
  hole (local_var f) ")" (otoks var_toks o ++ rest) = Some (o, rest).
Proof.
  intros l H. rewrite forallb_forall in H.
  assert (C : exists N, forall f, N <= f -> forall v, In (Some v) l -> forall rest, ended rest -> local_var f (var_toks v ++ rest) = Some (v, rest)).
  { induction l as [|o l IH]; [exists 0; intros f _ v []|]. destruct IH as (N1 & I); [intros o' Io; apply H; now right|]. destruct o as [v|].
    - destruct (local_ok v) as (N2 & X); [exact (H (Some v) (or_introl eq_refl))|]. exists (N1 + N2). intros f Hf v' [E|E] rest En; [injection E as <-; apply X; [lia|exact En]|apply I; [lia|exact E|exact En]].
    - exists N1. intros f Hf v' [E|E] rest En; [discriminate E|]. now apply I. }
  destruct C as (N & C). exists N. intros f F [v|] rest I (r & B).
  - specialize (H _ I). cbn [maybe] in H. cbn [otoks]. unfold hole. pose proof (local_param v H) as P. destruct (param_toks v P) as (_ & S & _).
    rewrite !var_not_sym by exact S. rewrite C; [reflexivity|exact F|exact I|]. destruct B as [-> | ->]; reflexivity.
  - cbn [otoks app]. destruct B as [-> | ->]; reflexivity.
Qed.

Lemma simple_ok : forall s, is_simple s = true -> stmt_spelled s = true -> ok simple_stmt (fun _ => True) (ctoks s) s.
Proof.
  intros s Si Sp. destruct s; try discriminate Si.
  - cbn [stmt_spelled] in Sp. destruct (exp_ok e Sp) as (N1 & X). destruct (exp_not_local e Sp) as (N2 & L). destruct (exp_not_locals e Sp) as (N3 & M).
    exists (N1 + N2 + N3). intros f F rest _. cbn [ctoks]. rewrite <- app_assoc. cbn [app]. unfold simple_stmt. rewrite M by lia. rewrite L; [|lia|exact Logic.I].
    unfold expression in X. rewrite X; [reflexivity|lia|exact Logic.I].
  - assert (C : (exists v, l = [Some v] /\ local_spelled v = true /\ maybe exp_spelled e = true) \/
      (Nat.ltb 1 (List.length l) = true /\ existsb none l = true /\ forallb (maybe local_spelled) l = true /\ exists x, e = Some x /\ exp_spelled x = true)).
    { destruct l as [|[v|] [|o l]]; cbn [stmt_spelled] in Sp; try discriminate Sp.
      - left. exists v. andb. auto.
      - right. andb. destruct e as [x|]; [|discriminate]. split; [reflexivity|]. split; [assumption|]. split; [assumption|]. exists x. auto.
      - right. andb. destruct e as [x|]; [|discriminate]. split; [reflexivity|]. split; [assumption|]. split; [assumption|]. exists x. auto. }
    clear Sp. destruct C as [(v & -> & Lv & Ev)|(Len & Ex & F & x & -> & Sx)].
    + destruct (local_ok v Lv) as (N1 & L). cbn [ctoks List.length Nat.ltb Nat.leb map otoks commas tjoin]. destruct e as [e|].
      * destruct (exp_ok e Ev) as (N2 & X). exists (N1 + N2). intros f Hf rest _. unfold commas. cbn [map tjoin otoks value_toks]. napp. unfold simple_stmt.
        rewrite local_no_paren by exact Lv. rewrite L; [|lia|reflexivity]. cbn [sym String.eqb Ascii.eqb Bool.eqb].
        unfold expression in X. rewrite X; [reflexivity|lia|exact Logic.I].
      * exists N1. intros f Hf rest _. unfold commas. cbn [map tjoin otoks value_toks]. napp. unfold simple_stmt. 
        rewrite local_no_paren by exact Lv. rewrite L; [|lia|reflexivity]. reflexivity.
    + destruct (hole_ok l F) as (N1 & L). destruct (exp_ok x Sx) as (N2 & X). exists (N1 + N2 + List.length l). intros f Hf rest _. cbn [ctoks]. rewrite Len. cbn [value_toks otoks]. napp.
      unfold simple_stmt, local_vars. cbn [sym String.eqb Ascii.eqb Bool.eqb after].
      rewrite (items1_ok (hole (local_var f) ")") ")" (otoks var_toks) l).
      * cbn [then_]. unfold none in Ex. rewrite Ex. cbn [sym String.eqb Ascii.eqb Bool.eqb after].
        unfold expression in X. rewrite X; [reflexivity|lia|exact Logic.I].
      * intros ->. discriminate Len.
      * discriminate.
      * intros o r I B. apply L; [lia|exact I|exact B].
      * lia.
Qed.

(** ** Statements *)

Lemma stmt_begins : forall s r, stmt_spelled s = true ->
  word "else" (ctoks s ++ r) = None /\ word "catch" (ctoks s ++ r) = None /\ sym "}" (ctoks s ++ r) = None.
Proof.
  assert (B : forall ts, simple_start ts = true -> word "else" ts = None /\ word "catch" ts = None /\ sym "}" ts = None).
  { intros ts H. split; [|split]; [apply simple_not; [cbn; tauto|exact H]|apply simple_not; [cbn; tauto|exact H]|now apply simple_not_brace]. }
  intros s r Sp. destruct s; try (repeat split; reflexivity).
  - cbn [stmt_spelled] in Sp. unfold exp_spelled in Sp. andb. cbn [ctoks]. rewrite <- app_assoc. cbn [app]. apply B, plain_simple, exp_plain; [assumption|now apply negb_true_iff].
  - destruct l as [|o [|o2 l]]; [discriminate Sp| |repeat split; reflexivity]. destruct o as [v|]; [|discriminate Sp]. cbn [stmt_spelled] in Sp. andb.
    cbn [ctoks List.length Nat.ltb Nat.leb map otoks commas]. unfold commas. cbn [tjoin]. rewrite <- app_assoc. apply B. now apply local_start.
  - cbn [ctoks]. destruct unchecked; repeat split; reflexivity.
  - cbn [stmt_spelled] in Sp. apply smem_In in Sp. destruct Sp as [<-|[<-|[<-|[]]]]; repeat split; reflexivity.
Qed.

Fixpoint open_try (s : sstmt) : bool :=
  match s with
  | CTry _ _ _ _ => true
  | CIf _ s None | CIf _ _ (Some s) | CWhile _ s | CFor _ _ _ s => open_try s
  | _ => false
  end.

Definition fits (s : sstmt) (rest : list token) : Prop := (open_if s = true -> word "else" rest = None) /\ (open_try s = true -> word "catch" rest = None).
Definition sok (s : sstmt) : Prop := ok stmt (fits s) (ctoks s) s.

Lemma until_ok : forall {A} (p : parser A) close (toks : A -> list token) (c : list token -> Prop) (l : list A) rest,
  (forall a r, In a l -> sym close (toks a ++ r) = None) -> c (KSym close :: rest) -> (forall a r, In a l -> c (toks a ++ r)) ->
  (forall a r, In a l -> c r -> p (toks a ++ r) = Some (a, r)) ->
  forall g, List.length l < g -> until g p close (flat_map toks l ++ KSym close :: rest) = Some (l, rest).
Proof.
  intros A p close toks c l rest. induction l as [|a l IH]; intros H1 C1 C2 P g G; (destruct g as [|g]; [lia|]).
  - cbn [flat_map app until sym]. now rewrite String.eqb_refl.
  - cbn [flat_map until]. rewrite <- app_assoc, H1 by now left. rewrite P; [|now left|].
    + cbn [then_]. rewrite IH; [reflexivity| | | | |cbn in G; lia]; auto; intros; [apply H1|apply C2|apply P]; auto; now right.
    + destruct l as [|b l]; [exact C1|]. cbn [flat_map]. rewrite <- app_assoc. apply C2. right. now left.
Qed.

Lemma block_ok : forall s, is_cblock s = true -> sok s -> ok (fun f => block_of f (stmt f)) (fun _ => True) (ctoks s) s.
Proof.
  intros s C (N & H). destruct s; try discriminate C. destruct unchecked; [discriminate C|]. exists N. intros f F rest _.
  specialize (H (Datatypes.S f) ltac:(lia) rest ltac:(split; intros Q; discriminate Q)). exact H.
Qed.

Lemma condition_ok : forall e f N r, (forall f, N <= f -> forall rest, stops 3 rest -> expr f 3 (xtoks e ++ rest) = Some (e, rest)) -> N <= f ->
  then_ (expr f 3 (xtoks e ++ KSym ")" :: r)) (fun e r => after (sym ")" r) (fun r => Some (e, r))) = Some (e, r).
Proof. intros e f N r X F. rewrite X; [reflexivity|exact F|exact Logic.I]. Qed.

Lemma maybe_expr_ok : forall o close, maybe exp_spelled o = true -> smem close [";"; ")"] = true ->
  ok (fun f => maybe_expr f close) (fun _ => True) (otoks xtoks o ++ [KSym close]) o.
Proof.
  intros [e|] close H C.
  - destruct (exp_ok e H) as (N & X). exists N. intros f F rest _. cbn [otoks]. rewrite <- app_assoc. cbn [app]. unfold maybe_expr.
    apply smem_In in C. unfold expression in X. 
    rewrite exp_not_sym; [|exact H|destruct C as [<-|[<-|[]]]; reflexivity].
    rewrite X; [|exact F|destruct C as [<-|[<-|[]]]; exact Logic.I]. cbn [then_ sym]. rewrite String.eqb_refl. reflexivity.
  - exists 0. intros f _ rest _. cbn [otoks app]. unfold maybe_expr. cbn [sym]. now rewrite String.eqb_refl.
Qed.

Definition clause_toks (c : string * option (list svar) * sstmt) : list token :=
  KWord "catch" :: wtoks (fst (fst c)) ++ otoks params_toks (snd (fst c)) ++ ctoks (snd c).
Definition clause_spelled (c : string * option (list svar) * sstmt) : bool :=
  match snd (fst c) with Some ps => blank_or name (fst (fst c)) && forallb param_spelled ps | None => fst (fst c) =?s "" end &&
  is_cblock (snd c) && stmt_spelled (snd c).

Lemma catches_ok : forall cs, forallb clause_spelled cs = true -> Forall (fun c => sok (snd c)) cs ->
  exists N, forall f, N <= f -> forall g rest, List.length cs < g -> word "catch" rest = None ->
    catches g f (block_of f (stmt f)) (flat_map clause_toks cs ++ rest) = Some (cs, rest).
Proof.
  intros cs H. induction 1 as [|[[x ps] b] cs So F IH].
  - exists 0. intros f _ [|g] rest G W; [cbn in G; lia|]. cbn [flat_map app catches]. now rewrite W.
  - cbn [forallb] in H. andb. destruct IH as (N1 & IH); [assumption|]. match goal with K : clause_spelled _ = true |- _ => rename K into C end.
    unfold clause_spelled in C. cbn [fst snd] in *. apply andb_true_iff in C. destruct C as (C & Sb). apply andb_true_iff in C. destruct C as (C & Bb).
    destruct (block_ok b Bb So) as (N2 & B).
    assert (Ob : exists q, ctoks b = KSym "{" :: q) by (destruct b; try discriminate Bb; destruct unchecked; [discriminate Bb|]; eexists; reflexivity).
    destruct Ob as (q & Ob). destruct ps as [ps|].
    + andb. destruct (params_ok ps) as (N3 & P); [assumption|]. exists (N1 + N2 + N3). intros f Hf [|g] rest G W; [cbn in G; lia|].
      cbn [flat_map]. unfold clause_toks at 1. cbn [fst snd otoks]. cbn [app catches word String.eqb Ascii.eqb Bool.eqb].
      replace (((wtoks x ++ params_toks ps ++ ctoks b) ++ flat_map clause_toks cs) ++ rest) with (wtoks x ++ params_toks ps ++ ctoks b ++ flat_map clause_toks cs ++ rest) by (napp; reflexivity).
      rewrite maybe_ident_ok; [|assumption|exact Logic.I].
      specialize (P f ltac:(lia) (ctoks b ++ flat_map clause_toks cs ++ rest) Logic.I). unfold params, params_toks in *. cbn [app sym String.eqb Ascii.eqb Bool.eqb after] in *.
      rewrite P. cbn [then_]. rewrite B; [|lia|exact Logic.I]. cbn [then_]. rewrite IH; [reflexivity|lia|cbn in G; lia|exact W].
    + seqb. exists (N1 + N2). intros f Hf [|g] rest G W; [cbn in G; lia|].
      cbn [flat_map]. unfold clause_toks at 1. cbn [fst snd otoks wtoks String.eqb]. cbn [app catches word String.eqb Ascii.eqb Bool.eqb].
      replace ((ctoks b ++ flat_map clause_toks cs) ++ rest) with (ctoks b ++ flat_map clause_toks cs ++ rest) by (napp; reflexivity).
      assert (M : maybe_ident (ctoks b ++ flat_map clause_toks cs ++ rest) = ("", ctoks b ++ flat_map clause_toks cs ++ rest)) by (rewrite Ob; reflexivity).
      assert (O : sym "(" (ctoks b ++ flat_map clause_toks cs ++ rest) = None) by (rewrite Ob; reflexivity).
      rewrite M, O, B; [|lia|exact Logic.I]. cbn [then_]. rewrite IH; [reflexivity|lia|cbn in G; lia|exact W].
Qed.

Lemma ended_ok : forall e (c : sexp -> sstmt) f N r, (forall f, N <= f -> forall rest, stops 3 rest -> expr f 3 (xtoks e ++ rest) = Some (e, rest)) -> N <= f ->
  then_ (expr f 3 (xtoks e ++ KSym ";" :: r)) (fun e r => after (sym ";" r) (fun r => Some (c e, r))) = Some (c e, r).
Proof. intros e c f N r X F. rewrite X; [reflexivity|exact F|exact Logic.I]. Qed.

Lemma begins_word : forall e r, begins_id e = true -> exists w q, xtoks e ++ r = KWord w :: q.
Proof.
  intros e. induction e; intros r H; try discriminate H; cbn [xtoks begins_id] in *; [eexists _, _; reflexivity| | |]; rewrite <- app_assoc; eauto.
Qed.

Lemma simple_fine : forall s, is_simple s = true -> stmt_spelled s = true -> sok s.
Proof.
  intros s Si Sp. destruct (simple_ok s Si Sp) as (N & H). exists (Datatypes.S N). intros [|f] F rest _; [lia|]. rewrite stmt_simple; [apply H; [lia|exact Logic.I]|].
  destruct s; try discriminate Si.
  - cbn [stmt_spelled] in Sp. unfold exp_spelled in Sp. andb. cbn [ctoks]. rewrite <- app_assoc. cbn [app]. apply plain_simple, exp_plain; [assumption|now apply negb_true_iff].
  - destruct l as [|o [|o2 l]]; [discriminate Sp| |reflexivity]. destruct o as [v|]; [|discriminate Sp]. cbn [stmt_spelled] in Sp. andb.
    cbn [ctoks List.length Nat.ltb Nat.leb map otoks commas]. unfold commas. cbn [tjoin]. rewrite <- app_assoc. now apply local_start.
Qed.

Lemma stmts_ok : forall l, forallb stmt_spelled l = true -> Forall sok l -> exists N, forall f, N <= f -> forall rest, 
  until f (stmt f) "}" (flat_map ctoks l ++ KSym "}" :: rest) = Some (l, rest).
Proof.
  intros l H So.
  assert (C : exists N, forall f, N <= f -> forall s, In s l -> forall rest, fits s rest -> stmt f (ctoks s ++ rest) = Some (s, rest)).
  { clear H. induction So as [|s l (N1 & S) So (N2 & IH)]; [exists 0; intros f _ s []|]. exists (N1 + N2). intros f F s' [<-|I] rest Ft; [apply S|apply IH]; auto; lia. }
  destruct C as (N & C). rewrite forallb_forall in H. exists (N + Datatypes.S (List.length l)). intros f F rest.
  apply (until_ok (stmt f) "}" ctoks (fun ts => word "else" ts = None /\ word "catch" ts = None)).
  - intros s r I. now apply stmt_begins, H.
  - split; reflexivity.
  - intros s r I. destruct (stmt_begins s r (H s I)) as (A & B & _). auto.
  - intros s r I (A & B). apply C; [lia|exact I|]. split; auto.
  - lia.
Qed.

Lemma stmt_ok : forall s, stmt_spelled s = true -> sok s.
Proof.
  induction s using sstmt_ind'; intros Sp; try (now apply simple_fine); cbn [stmt_spelled] in Sp; andb.
  - destruct (stmts_ok l) as (N & U).
    { rewrite forallb_forall in *. exact Sp. }
    { rewrite forallb_forall in Sp. rewrite Forall_forall in *. auto. }
    exists (Datatypes.S N). intros [|f] F rest _; [lia|]. cbn [ctoks]. destruct u; cbn [ftoks]; napp.
    + cbn [stmt String.eqb Ascii.eqb Bool.eqb]. unfold block_of. cbn [sym String.eqb Ascii.eqb Bool.eqb after]. rewrite U by lia. reflexivity.
    + cbn [stmt String.eqb Ascii.eqb Bool.eqb]. unfold block_of. cbn [sym String.eqb Ascii.eqb Bool.eqb after]. rewrite U by lia. reflexivity.
  - destruct (exp_ok e) as (N1 & X); [assumption|]. unfold expression in X. destruct IHs as (N2 & Y); [assumption|].
    destruct b as [no|].
    + cbn [SolText.OForall] in *. andb. match goal with K : sok _ |- _ => fail | K : stmt_spelled no = true -> sok no |- _ => destruct K as (N3 & Z); [assumption|] end.
      exists (Datatypes.S (N1 + N2 + N3)). intros [|f] F rest (Fi & Ft); [lia|]. cbn [ctoks]. napp. cbn [stmt String.eqb Ascii.eqb Bool.eqb sym after].
      rewrite (condition_ok e f N1 _ X) by lia. cbn [then_]. rewrite Y; [|lia|].
      * cbn [then_ word String.eqb Ascii.eqb Bool.eqb]. rewrite Z; [reflexivity|lia|]. split; [exact Fi|exact Ft].
      * split; [|reflexivity]. intros O. exfalso. match goal with K : is_cblock s || negb (open_if s) = true |- _ => rewrite O in K; destruct s; try discriminate end.
    + exists (Datatypes.S (N1 + N2)). intros [|f] F rest (Fi & Ft); [lia|]. cbn [ctoks]. napp. cbn [stmt String.eqb Ascii.eqb Bool.eqb sym after].
      rewrite (condition_ok e f N1 _ X) by lia. cbn [then_]. rewrite Y; [|lia|].
      * cbn [then_]. rewrite Fi by reflexivity. reflexivity.
      * split; [intros _; now apply Fi|exact Ft].
  - destruct (exp_ok e) as (N1 & X); [assumption|]. unfold expression in X. destruct IHs as (N2 & Y); [assumption|].
    exists (Datatypes.S (N1 + N2)). intros [|f] F rest Ft; [lia|]. cbn [ctoks]. napp. cbn [stmt String.eqb Ascii.eqb Bool.eqb sym after].
    rewrite (condition_ok e f N1 _ X) by lia. cbn [then_]. rewrite Y; [reflexivity|lia|exact Ft].
  - destruct (exp_ok e) as (N1 & X); [assumption|]. unfold expression in X. destruct IHs as (N2 & Y); [assumption|].
    exists (Datatypes.S (N1 + N2)). intros [|f] F rest Ft; [lia|]. cbn [ctoks]. napp. cbn [stmt String.eqb Ascii.eqb Bool.eqb sym after].
    rewrite Y; [|lia|split; reflexivity]. cbn [then_ word sym String.eqb Ascii.eqb Bool.eqb after]. rewrite (condition_ok e f N1 _ X) by lia. reflexivity.
  - destruct IHs as (N4 & Y); [assumption|].
    destruct (maybe_expr_ok e ";") as (N1 & X); [assumption|reflexivity|]. destruct (maybe_expr_ok l ")") as (N2 & L); [assumption|reflexivity|].
    assert (I : exists N, forall f, N <= f -> forall r,
      match sym ";" (match i with Some i => ctoks i | None => [KSym ";"] end ++ r) with
      | Some r => Some (None, r)
      | None => then_ (simple_stmt f (match i with Some i => ctoks i | None => [KSym ";"] end ++ r)) (fun s r => Some (Some s, r))
      end = Some (i, r)).
    { destruct i as [i|]; [|exists 0; reflexivity]. andb. destruct (simple_ok i) as (N & P); [assumption|assumption|]. exists N. intros f F r.
      replace (sym ";" (ctoks i ++ r)) with (@None (list token)); [rewrite P; [reflexivity|exact F|exact Logic.I]|]. symmetry.
      destruct i; try discriminate.
      - cbn [ctoks stmt_spelled] in *. rewrite <- app_assoc. now apply exp_not_sym.
      - destruct l0 as [|o [|o2 l0]]; [discriminate| |reflexivity]. destruct o as [v|]; [|discriminate]. cbn [stmt_spelled] in *. andb.
        cbn [ctoks List.length Nat.ltb Nat.leb map otoks commas]. unfold commas. cbn [tjoin]. rewrite <- app_assoc. apply var_not_sym.
        match goal with K : local_spelled v = true |- _ => apply local_param in K; now destruct (param_toks v K) as (_ & ? & _) end. }
    destruct I as (N3 & I). exists (Datatypes.S (N1 + N2 + N3 + N4)). intros [|f] F rest Ft; [lia|]. cbn [ctoks].
    replace ((KWord "for" :: KSym "(" :: match i with Some i => ctoks i | None => [KSym ";"] end ++ otoks xtoks e ++ KSym ";" :: otoks xtoks l ++ KSym ")" :: ctoks s) ++ rest)
      with (KWord "for" :: KSym "(" :: match i with Some i => ctoks i | None => [KSym ";"] end ++ (otoks xtoks e ++ [KSym ";"]) ++ (otoks xtoks l ++ [KSym ")"]) ++ ctoks s ++ rest) by (napp; reflexivity).
    cbn [stmt String.eqb Ascii.eqb Bool.eqb]. cbn [sym after String.eqb Ascii.eqb Bool.eqb]. cbn [sym after String.eqb Ascii.eqb Bool.eqb] in I. rewrite I by lia. cbn [then_].
    rewrite X; [|lia|exact Logic.I]. cbn [then_]. rewrite L; [|lia|exact Logic.I]. cbn [then_]. rewrite Y; [reflexivity|lia|exact Ft].
  - destruct (maybe_expr_ok e ";") as (N1 & X); [assumption|reflexivity|]. exists (Datatypes.S N1). intros [|f] F rest _; [lia|]. cbn [ctoks].
    change ((KWord "return" :: otoks xtoks e ++ [KSym ";"]) ++ rest) with (KWord "return" :: (otoks xtoks e ++ [KSym ";"]) ++ rest).
    cbn [stmt String.eqb Ascii.eqb Bool.eqb]. rewrite X; [reflexivity|lia|exact Logic.I].
  - destruct (exp_ok e) as (N1 & X); [assumption|]. unfold expression in X. exists (Datatypes.S N1). intros [|f] F rest _; [lia|]. cbn [ctoks]. napp.
    cbn [stmt String.eqb Ascii.eqb Bool.eqb]. apply ended_ok with N1; [exact X|lia].
  - destruct (exp_ok e) as (N1 & X); [assumption|]. unfold expression in X. exists (Datatypes.S N1). intros [|f] F rest _; [lia|]. cbn [ctoks]. napp.
    destruct (begins_word e (KSym ";" :: rest)) as (w & q & E); [assumption|]. cbn [stmt String.eqb Ascii.eqb Bool.eqb]. rewrite E at 1. cbn [andb].
    apply ended_ok with N1; [exact X|lia].
  - exists 1. intros [|f] F rest _; [lia|]. apply smem_In in Sp. destruct Sp as [<-|[<-|[<-|[]]]]; reflexivity.
  - destruct (exp_ok e) as (N1 & X); [assumption|]. unfold expression in X. destruct (params_ok rs) as (N2 & P); [assumption|].
    destruct (block_ok s) as (N3 & B); [assumption|auto|]. 
    match goal with K : forallb _ cs = true |- _ => change (forallb clause_spelled cs = true) in K; rename K into C end.
    destruct (catches_ok cs C) as (N4 & Y).
    { rewrite forallb_forall in C. rewrite Forall_forall in *. intros c I. specialize (C c I). unfold clause_spelled in C. apply andb_true_iff in C. destruct C as (_ & C). auto. }
    exists (Datatypes.S (N1 + N2 + N3 + N4 + Datatypes.S (List.length cs))). intros [|f] F rest (_ & Ft); [lia|]. cbn [ctoks]. destruct rs as [|r0 rs]; [discriminate|]. cbn [returns_toks].
    change (flat_map _ cs) with (flat_map clause_toks cs).
    replace ((KWord "try" :: xtoks e ++ (KWord "returns" :: params_toks (r0 :: rs)) ++ ctoks s ++ flat_map clause_toks cs) ++ rest)
      with (KWord "try" :: xtoks e ++ KWord "returns" :: params_toks (r0 :: rs) ++ ctoks s ++ flat_map clause_toks cs ++ rest) by (napp; reflexivity).
    cbn [stmt String.eqb Ascii.eqb Bool.eqb]. cbn [andb]. change (smem "try" ["break"; "continue"; "_"]) with false. cbv iota.
    rewrite X; [|lia|exact Logic.I]. cbn [then_ word String.eqb Ascii.eqb Bool.eqb]. rewrite P; [|lia|exact Logic.I]. cbn [then_].
    rewrite B; [|lia|exact Logic.I]. cbn [then_]. rewrite Y; [reflexivity|lia|lia|now apply Ft].
Qed.
