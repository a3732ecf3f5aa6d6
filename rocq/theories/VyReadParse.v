(** The tokens of an expression are read as the expression. *)
From Coq Require Import String Ascii List NArith ZArith Bool Lia DecimalString.
From Verif Require Import Base Json SpecLiteral SpecVyText SpecVyRead LitFacts PathFacts VyText VyReadLex VyReadToks.
Import ListNotations.
Open Scope string_scope.
Open Scope list_scope.

(** ** Where an expression ends *)

(** The tightest level at which the token continues an expression. *)
Definition rank (t : tok) : option nat :=
  match t with
  | TSym s =>
      if smem s ["."; "["; "("] then Some 12
      else if s =?s "**" then Some 11
      else if smem s (operators 9) then Some 9
      else if smem s (operators 8) then Some 8
      else if smem s (operators 7) then Some 7
      else if smem s (operators 6) then Some 6
      else if smem s (operators 5) then Some 5
      else if smem s (operators 4) then Some 4
      else if smem s ["=="; "!="; "<"; ">"; "<="; ">="] then Some 3
      else None
  | TWord w =>
      if smem w ["in"; "not"] then Some 3 else if w =?s "and" then Some 1 else if w =?s "or" then Some 0 else None
  | _ => None
  end.

Definition stops (l : nat) (rest : list tok) : Prop :=
  match rest with
  | [] => True
  | t :: _ => match rank t with Some j => j < l | None => True end
  end.

Lemma stops_mono : forall l k rest, stops l rest -> l <= k -> stops k rest.
Proof. intros l k [|t r] H L; [exact I|]. cbn in *. destruct (rank t); [lia|exact I]. Qed.

Ltac seqb := repeat match goal with
  | H : (?a =?s ?b) = true |- _ => apply String.eqb_eq in H; subst
  end.

Lemma rank_is : forall s l, l = 9 \/ l = 8 \/ l = 7 \/ l = 6 \/ l = 5 \/ l = 4 -> smem s (operators l) = true -> rank (TSym s) = Some l.
Proof.
  intros s l L H. apply smem_true_In in H. repeat destruct L as [->|L]; try subst l; cbn in H;
    repeat (destruct H as [<-|H]; [reflexivity|]); destruct H.
Qed.

Lemma stops_chain : forall l rest, l = 9 \/ l = 8 \/ l = 7 \/ l = 6 \/ l = 5 \/ l = 4 -> stops l rest ->
  match rest with TSym s :: _ => smem s (operators l) = false | _ => True end.
Proof.
  intros l [|[]] L H; try exact I. destruct (smem s (operators l)) eqn:E; [|reflexivity].
  exfalso. cbn [stops] in H. rewrite (rank_is s l L E) in H. lia.
Qed.

Lemma stops_power : forall rest, stops 11 rest -> sym "**" rest = None.
Proof. intros [|[]] H; try reflexivity. cbn [sym]. destruct (s =?s "**") eqn:E; [|reflexivity]. seqb. cbn in H. lia. Qed.

Lemma stops_compare : forall rest, stops 3 rest -> comparison rest = None.
Proof.
  intros [|[]] H; try reflexivity.
  - cbn [comparison]. destruct (s =?s "in") eqn:E; [seqb; cbn in H; lia|].
    destruct (s =?s "not") eqn:E2; [seqb; cbn in H; lia|reflexivity].
  - cbn [comparison]. destruct (smem s _) eqn:E; [|reflexivity]. apply smem_true_In in E. cbn in E.
    repeat (destruct E as [<-|E]; [cbn in H; lia|]). destruct E.
Qed.

Lemma stops_word : forall l rest, stops l rest -> l <= 1 -> word (match l with 0 => "or" | _ => "and" end) rest = None.
Proof.
  intros l [|[]] H L; try reflexivity. cbn [word]. destruct l as [|[|l]]; [| |lia].
  - destruct (s =?s "or") eqn:E; [seqb; cbn in H; lia|reflexivity].
  - destruct (s =?s "and") eqn:E; [seqb; cbn in H; lia|reflexivity].
Qed.

Lemma stops_trailers : forall g ex a rest, stops 12 rest -> trailers (S g) ex a rest = Some (a, rest).
Proof.
  intros g ex a [|[]] H; try reflexivity. cbn [trailers].
  destruct (s =?s ".") eqn:E1; [seqb; cbn in H; lia|]. destruct (s =?s "[") eqn:E2; [seqb; cbn in H; lia|].
  destruct (s =?s "(") eqn:E3; [seqb; cbn in H; lia|reflexivity].
Qed.

(** ** How the tokens of an expression begin *)

Definition starts (l : nat) (t : tok) : Prop :=
  match t with
  | TWord w => smem w keywords = false \/ w = "not" /\ l <= 2
  | TSym s => In s ["("; "["; "{"] \/ In s ["-"; "~"] /\ l <= 10
  | TLine _ => False
  | _ => True
  end.
Definition opening (l : nat) (ts : list tok) : Prop := match ts with t :: _ => starts l t | [] => False end.

Lemma opening_mono : forall l k ts, opening l ts -> k <= l -> opening k ts.
Proof. intros l k [|[]] H L; cbn in *; auto; destruct H as [H|(H & K)]; auto; right; split; auto; lia. Qed.
Lemma opening_app : forall l ts r, opening l ts -> opening l (ts ++ r).
Proof. intros l [|t ts] r H; [destruct H|exact H]. Qed.

Definition plevel (e : vexp) : nat :=
  match e with
  | VLogic both _ _ _ => if both then 1 else 0
  | VNot _ => 2
  | VCmp _ _ _ => 3
  | VBin op _ _ => match rank (TSym op) with Some l => l | None => 0 end
  | VInvert _ | VNeg _ => 10
  | VInt z => if (z <? 0)%Z then 10 else 12
  | _ => 12
  end.

Lemma binary_rank : forall op, smem op (map snd binary_symbols) = true ->
  (op = "**" /\ rank (TSym op) = Some 11) \/
  (op <> "**" /\ exists l, (l = 9 \/ l = 8 \/ l = 7 \/ l = 6 \/ l = 5 \/ l = 4) /\ rank (TSym op) = Some l /\ smem op (operators l) = true).
Proof.
  intros op H. apply smem_true_In in H. cbn in H.
  repeat (destruct H as [<-|H];
    [first [left; split; reflexivity|right; split; [discriminate|]; eexists; split; [|split; [reflexivity|reflexivity]]; lia]|]).
  destruct H.
Qed.

Lemma level_binding : forall e, (2 <= binding e -> 2 <= plevel e) /\ (3 <= binding e -> 10 <= plevel e) /\ (4 <= binding e -> plevel e = 12).
Proof. intros e. destruct e; cbn; try lia; try (destruct (z <? 0)%Z; lia); destruct hex; lia. Qed.

Lemma plevel_max : forall e, plevel e <= 12.
Proof.
  intros e. destruct e; cbn [plevel]; try lia; try (destruct (z <? 0)%Z; lia).
  - destruct (rank (TSym op)) eqn:E; [|lia]. cbn [rank] in E.
    repeat match type of E with (if ?c then _ else _) = _ => destruct c; [injection E as <-; lia|] end. discriminate.
  - destruct both; lia.
Qed.

Lemma open_paren : forall l k e, opening (plevel e) (vtoks e) -> (k <= binding e -> l <= plevel e) -> 
  opening l (ptoks (Nat.ltb (binding e) k) (vtoks e)).
Proof.
  intros l k e H L. destruct (Nat.ltb (binding e) k) eqn:B.
  - cbn. left. cbn. tauto.
  - apply Nat.ltb_ge in B. exact (opening_mono _ _ _ H (L B)).
Qed.

Lemma name_free : forall x, name x = true -> smem x keywords = false /\ assoc x constants = None.
Proof.
  intros x H. unfold name in H. andb. split; [now apply negb_true_iff|].
  match goal with K : negb (smem x (map fst constants)) = true |- _ => apply negb_true_iff in K; rename K into Q end.
  cbn [map fst constants smem] in Q. cbn [assoc constants].
  repeat match type of Q with (if ?c then _ else _) = _ => destruct c; [discriminate|] end. reflexivity.
Qed.


Lemma exp_opening : forall e, spelled e = true -> opening (plevel e) (vtoks e).
Proof.
  intros e. induction e using vexp_ind'; intros Sp; cbn [spelled] in Sp; andb; cbn [vtoks].
  - cbn. left. apply name_free, Sp.
  - destruct z; cbn; auto.
  - exact I.
  - exact I.
  - exact I.
  - destruct b as [[]|]; cbn; now left.
  - apply opening_app. apply open_paren; [auto|]. cbn [plevel]. intros B.
    destruct (level_binding e1) as (_ & L3 & L4).
    match goal with K : smem op _ = true |- _ => destruct (binary_rank op K) as [(-> & R)|(N & l & L & R & _)] end; rewrite R.
    + cbn in B. rewrite (L4 B). lia.
    + unfold left_side in B. destruct (op =?s "**") eqn:E; [seqb; congruence|]. specialize (L3 B). lia.
  - apply opening_app. apply open_paren; [auto|]. cbn [plevel]. intros B. destruct (level_binding e1) as (_ & L3 & L4). specialize (L3 B). lia.
  - assert (O : opening (plevel (VLogic both e1 e2 more)) (ptoks (Nat.ltb (binding e1) 2) (vtoks e1))).
    { apply open_paren; [auto|]. intros B. destruct (level_binding e1) as (L2 & _). specialize (L2 B). cbn. destruct both; lia. }
    cbn [tjoin]. apply opening_app. exact O.
  - right. split; [reflexivity|cbn; lia].
  - right. split; [cbn; tauto|cbn; lia].
  - right. split; [cbn; tauto|cbn; lia].
  - apply opening_app. apply open_paren; [auto|]. cbn [plevel]. intros B. destruct (level_binding e) as (_ & _ & L4). rewrite L4; lia.
  - apply opening_app. apply open_paren; [auto|]. cbn [plevel]. intros B. destruct (level_binding e1) as (_ & _ & L4). rewrite L4; lia.
  - apply opening_app. apply open_paren; [auto|]. cbn [plevel]. intros B. destruct (level_binding e) as (_ & _ & L4). rewrite L4; lia.
  - left. cbn. tauto.
  - destruct l as [|a [|b l]]; left; cbn; tauto.
  - left. cbn. tauto.
Qed.

(** ** Lists *)

Lemma open_not_sym : forall l s ts, opening l ts -> smem s ["("; "["; "{"; "-"; "~"] = false -> sym s ts = None.
Proof.
  intros l s [|[]] H N; try reflexivity. cbn [sym]. destruct (s0 =?s s) eqn:E; [|reflexivity]. seqb.
  assert (K : smem s ["("; "["; "{"; "-"; "~"] = true).
  { apply smem_true_In. cbn in H. cbn. tauto. }
  congruence.
Qed.

Definition between_ok (close : string) (rest : list tok) : Prop := exists r, rest = TSym "," :: r \/ rest = TSym close :: r.

Lemma items_ok : forall {A} (p : parser A) (close : string) (toks : A -> list tok) (l : list A),
  close <> "," ->
  (forall a r, In a l -> sym close (toks a ++ r) = None) ->
  (forall a rest, In a l -> between_ok close rest -> p (toks a ++ rest) = Some (a, rest)) ->
  forall g rest, List.length l < g -> items g p close (tjoin [TSym ","] (map toks l) ++ TSym close :: rest) = Some (l, rest).
Proof.
  intros A p close toks l Hc. induction l as [|a l IH]; intros H1 H2 g rest Hg; (destruct g as [|g]; [lia|]).
  - cbn. now rewrite String.eqb_refl.
  - destruct l as [|b l].
    + cbn [map tjoin items]. rewrite H1 by (left; reflexivity). rewrite H2; [|left; reflexivity|exists rest; now right].
      cbn [sym]. now rewrite String.eqb_refl.
    + change (tjoin [TSym ","] (map toks (a :: b :: l))) with (toks a ++ [TSym ","] ++ tjoin [TSym ","] (map toks (b :: l))).
      rewrite <- !app_assoc. cbn [items]. rewrite H1 by (left; reflexivity).
      rewrite H2; [|left; reflexivity|eexists; left; reflexivity]. cbn [app sym].
      rewrite (proj2 (String.eqb_neq "," close)) by congruence. rewrite String.eqb_refl.
      rewrite IH; [reflexivity| | |cbn in *; lia].
      * intros x r Hx. apply H1. now right.
      * intros x r Hx. apply H2. now right.
Qed.

(** ** Expressions *)

Definition goodt (ts : list tok) (L : nat) (e : vexp) : Prop :=
  exists N, forall f, N <= f -> forall l rest, l <= L -> stops l rest -> expr f l (ts ++ rest) = Some (e, rest).
Definition good (e : vexp) : Prop := goodt (vtoks e) (plevel e) e.

(** An atom and what follows it, up to the end of [e]. *)
Definition prim (ts : list tok) (e : vexp) : Prop :=
  exists N M, forall f rest, N <= f -> exists a r, atom f (expr f 0) (ts ++ rest) = Some (a, r) /\
    forall g, N <= g -> trailers (M + g) (expr f 0) a r = trailers g (expr f 0) e rest.

Lemma lower : forall ts e l f rest, l < 12 -> opening (S l) ts ->
  (forall rest, stops (S l) rest -> expr (S f) (S l) (ts ++ rest) = Some (e, rest)) -> stops l rest ->
  expr (S (S f)) l (ts ++ rest) = Some (e, rest).
Proof.
  intros ts e l f rest L O H St. pose proof (H rest (stops_mono _ _ _ St (Nat.le_succ_diag_r l))) as E. clear H.
  assert (C : l = 9 \/ l = 8 \/ l = 7 \/ l = 6 \/ l = 5 \/ l = 4 -> chain (S f) (operators l) (expr (S f) (S l)) e rest = Some (e, rest)).
  { intros K. pose proof (stops_chain l rest K St) as Q. destruct rest as [|[] r]; try reflexivity. cbn [chain]. now rewrite Q. }
  remember (S f) as g eqn:Hg.
  destruct l as [|[|[|[|[|[|[|[|[|[|[|[|l]]]]]]]]]]]]; [..|lia]; cbn [expr];
    try (rewrite E; try exact (C ltac:(lia))).
  - pose proof (stops_word 0 rest St ltac:(lia)) as W. subst g. cbn [joined]. cbn in W. rewrite W. reflexivity.
  - pose proof (stops_word 1 rest St ltac:(lia)) as W. subst g. cbn [joined]. cbn in W. rewrite W. reflexivity.
  - replace (word "not" (ts ++ rest)) with (@None (list tok)); [reflexivity|].
    destruct ts as [|[] ts]; try reflexivity; cbn in O; [destruct O|].
    cbn. destruct (s =?s "not") eqn:Q; [|reflexivity]. seqb. destruct O as [O|(_ & O)]; [discriminate|lia].
  - rewrite (stops_compare rest St). reflexivity.
  - assert (K : forall s, In s ["-"; "~"] -> sym s (ts ++ rest) = None).
    { intros s Hs. destruct ts as [|[] ts]; try reflexivity; cbn in O; [destruct O|]. cbn. destruct (s0 =?s s) eqn:Q; [|reflexivity]. seqb.
      exfalso. destruct O as [O|(_ & O)]; [|lia]. cbn in Hs, O. destruct Hs as [<-|[<-|[]]]; destruct O as [O|[O|[O|[]]]]; discriminate O. }
    rewrite !K by (cbn; tauto). reflexivity.
  - rewrite (stops_power rest St). reflexivity.
Qed.

Lemma lift : forall ts L e N, L <= 12 -> opening L ts ->
  (forall f, N <= f -> forall rest, stops L rest -> expr f L (ts ++ rest) = Some (e, rest)) -> goodt ts L e.
Proof.
  intros ts L e N B O H. exists (S N + 12). intros f F l rest Ll St.
  assert (K : forall k f rest l, S N + k <= f -> l + k = L -> stops l rest -> expr f l (ts ++ rest) = Some (e, rest)).
  { clear f F l rest Ll St. induction k as [|k IH]; intros f rest l F Ll St.
    - replace l with L in * by lia. apply H; [lia|exact St].
    - destruct f as [|[|f]]; try lia. apply lower.
      + lia.
      + apply opening_mono with L; [exact O|lia].
      + intros r Hr. apply IH; [lia|lia|exact Hr].
      + exact St. }
  apply K with (L - l); [lia|lia|exact St].
Qed.

Lemma prim_good : forall ts e, opening 12 ts -> prim ts e -> goodt ts 12 e.
Proof.
  intros ts e O (N & M & H). apply lift with (S (N + M + 1)); [lia|exact O|]. intros [|f] F rest St; [lia|].
  cbn [expr]. destruct (H f rest ltac:(lia)) as (a & r & -> & T).
  replace (trailers f (expr f 0) a r) with (trailers (M + S (f - M - 1)) (expr f 0) a r) by (f_equal; lia).
  rewrite T by lia. apply stops_trailers. exact St.
Qed.

(** In parentheses, or as it is. *)
Lemma paren_prim : forall e, opening (plevel e) (vtoks e) -> good e -> prim (TSym "(" :: vtoks e ++ [TSym ")"]) e.
Proof.
  intros e O (N & G). exists N, 0. intros f rest F. exists e, rest. split; [|reflexivity].
  cbn [app atom]. cbn [String.eqb Ascii.eqb Bool.eqb]. rewrite <- app_assoc.
  rewrite (open_not_sym (plevel e) ")" _ (opening_app _ _ _ O) eq_refl).
  rewrite G; [|exact F|lia|exact I]. reflexivity.
Qed.

Lemma goodt_mono : forall ts L k e, goodt ts L e -> k <= L -> goodt ts k e.
Proof. intros ts L k e (N & H) K. exists N. intros f F l rest Ll St. apply H; [exact F|lia|exact St]. Qed.

Lemma paren_good : forall l k e, spelled e = true -> good e -> l <= 12 -> (k <= binding e -> l <= plevel e) ->
  goodt (ptoks (Nat.ltb (binding e) k) (vtoks e)) l e.
Proof.
  intros l k e Sp G L B. destruct (Nat.ltb (binding e) k) eqn:E.
  - apply goodt_mono with 12; [|exact L]. apply prim_good; [left; cbn; tauto|]. apply paren_prim; [now apply exp_opening|exact G].
  - apply Nat.ltb_ge in E. exact (goodt_mono _ _ _ _ G (B E)).
Qed.

Lemma common : forall l, Forall good l -> exists N, forall e, In e l -> forall f, N <= f -> forall k rest, k <= plevel e -> stops k rest ->
  expr f k (vtoks e ++ rest) = Some (e, rest).
Proof.
  induction 1 as [|e l (N & H) F (N2 & IH)]; [exists 0; intros e []|].
  exists (N + N2). intros x [<-|Hx] f Hf; [apply H; lia|apply IH; [exact Hx|lia]].
Qed.

Lemma common2 : forall (l : list (list tok * nat * vexp)), Forall (fun x => goodt (fst (fst x)) (snd (fst x)) (snd x)) l ->
  exists N, forall x, In x l -> forall f, N <= f -> forall k rest, k <= snd (fst x) -> stops k rest ->
  expr f k (fst (fst x) ++ rest) = Some (snd x, rest).
Proof.
  induction 1 as [|e l (N & H) F (N2 & IH)]; [exists 0; intros e []|].
  exists (N + N2). intros x [<-|Hx] f Hf; [apply H; lia|apply IH; [exact Hx|lia]].
Qed.

Lemma int_prim : forall n, prim [TNum (show_N n)] (VInt (Z.of_N n)).
Proof.
  intros n. exists 0, 0. intros f rest _. eexists _, rest. split; [|reflexivity]. cbn [app atom].
  assert (L : literal (show_N n) = Some (VInt (Z.of_N n))); [|now rewrite L].
  pose proof (show_digits n) as D. unfold digits in D. andb. unfold literal.
  replace (String.prefix "0x" (show_N n)) with false.
  - replace (str_contains "." (show_N n)) with false.
    + unfold parse_digits, show_N. rewrite NilZero.usu by (destruct n as [|p]; [discriminate|exact (DecimalPos.Unsigned.to_uint_nonnil p)]).
      cbn [option_map]. now rewrite DecimalN.Unsigned.of_to.
    + symmetry. match goal with K : every digit _ = true |- _ => revert K end. generalize (show_N n). clear. induction s as [|c s IH]; [reflexivity|].
      cbn [every str_contains]. intros K. andb. rewrite IH by assumption.
      replace (Ascii.eqb "." c) with false; [reflexivity|]. symmetry. apply negb_true_iff. revert H. generalize c. apply imp_chars. vm_compute. reflexivity.
  - symmetry. match goal with K : every digit _ = true |- _ => revert K end. generalize (show_N n). clear. intros [|c s]; [reflexivity|].
    cbn [String.prefix every]. intros K. destruct (ascii_dec "0" c) as [<-|]; [|reflexivity]. destruct s as [|c s]; [reflexivity|].
    cbn [every String.prefix] in *. andb. destruct (ascii_dec "x" c) as [<-|]; [discriminate|reflexivity].
Qed.

Lemma prim_attr : forall ts a x, prim ts a -> prim (ts ++ [TSym "."; TWord x]) (VAttr a x).
Proof.
  intros ts a x (N & M & H). exists N, (S M). intros f rest F.
  destruct (H f ([TSym "."; TWord x] ++ rest) F) as (b & r & E & T). exists b, r. split; [rewrite <- app_assoc; exact E|].
  intros g G. replace (S M + g) with (M + S g) by lia. rewrite T by lia. reflexivity.
Qed.

Lemma sub_items : forall l N close, Forall (fun e => spelled e = true) l -> smem close ["("; "["; "{"; "-"; "~"] = false -> close <> "," ->
  (forall r, stops 0 (TSym close :: r)) ->
  (forall e, In e l -> forall f, N <= f -> forall k rest, k <= plevel e -> stops k rest -> expr f k (vtoks e ++ rest) = Some (e, rest)) ->
  forall f g rest, N <= f -> List.length l < g ->
  items g (expr f 0) close (tjoin [TSym ","] (map vtoks l) ++ TSym close :: rest) = Some (l, rest).
Proof.
  intros l N close Sp C1 C2 C3 H f g rest F G. apply items_ok; [exact C2| | |exact G].
  - intros e r He. rewrite Forall_forall in Sp. apply open_not_sym with (plevel e); [|exact C1]. apply opening_app, exp_opening, Sp, He.
  - intros e r He (q & [->| ->]); apply H; auto; try lia; first [exact I|apply C3].
Qed.

Lemma prim_sub : forall ts a i more, prim ts a -> Forall (fun e => spelled e = true) (i :: more) -> Forall good (i :: more) ->
  prim (ts ++ TSym "[" :: tjoin [TSym ","] (map vtoks (i :: more)) ++ [TSym "]"]) (VSub a i more).
Proof.
  intros ts a i more (N & M & H) Sp G. destruct (common _ G) as (N2 & C).
  exists (N + N2 + S (List.length (i :: more))), (S M). intros f rest F.
  destruct (H f ((TSym "[" :: tjoin [TSym ","] (map vtoks (i :: more)) ++ [TSym "]"]) ++ rest) ltac:(lia)) as (b & r & E & T).
  exists b, r. split; [rewrite <- app_assoc; exact E|].
  intros g Hg. replace (S M + g) with (M + S g) by lia. rewrite T by lia. cbn [app trailers]. cbn [String.eqb Ascii.eqb Bool.eqb].
  rewrite <- app_assoc. cbn [app].
  rewrite (sub_items (i :: more) N2 "]" Sp eq_refl ltac:(discriminate) (fun _ => I) C) by lia. reflexivity.
Qed.

Definition arg_toks (x : option string * vexp) : list tok :=
  match fst x with Some k => TWord k :: TSym "=" :: vtoks (snd x) | None => vtoks (snd x) end.

Lemma split_ok : forall args kws, split_args (map (fun e => (None, e)) args ++ map (fun kv => (Some (fst kv), snd kv)) kws) = Some (args, kws).
Proof.
  induction args as [|a args IH]; intros kws; cbn.
  - induction kws as [|(k & v) kws IHk]; [reflexivity|]. cbn. cbn in IHk. now rewrite IHk.
  - now rewrite IH.
Qed.

Lemma name_expr : forall k, name k = true -> good (VName k).
Proof.
  intros k K. destruct (name_free k K) as (K1 & K2). apply prim_good.
  - left. exact K1.
  - exists 0, 0. intros f rest _. eexists _, rest. split; [|reflexivity]. cbn [vtoks app atom]. now rewrite K2, K1.
Qed.

Lemma prim_call : forall ts a args kws, prim ts a -> Forall (fun e => spelled e = true) args -> Forall good args ->
  Forall (fun kv => name (fst kv) = true /\ spelled (snd kv) = true /\ good (snd kv)) kws ->
  prim (ts ++ TSym "(" :: tjoin [TSym ","] (map vtoks args ++ map (fun kv => TWord (fst kv) :: TSym "=" :: vtoks (snd kv)) kws) ++ [TSym ")"])
    (VCall a args kws).
Proof.
  intros ts a args kws (N & M & H) Sp G K. destruct (common _ G) as (N2 & C).
  destruct (common (map snd kws)) as (N3 & C3).
  { apply Forall_map. eapply Forall_impl; [|exact K]. intros kv Hk. apply Hk. }
  destruct (common (map (fun kv => VName (fst kv)) kws)) as (N4 & C4).
  { apply Forall_map. eapply Forall_impl; [|exact K]. intros kv Hk. apply name_expr, Hk. }
  set (l := map (fun e => (@None string, e)) args ++ map (fun kv => (Some (fst kv), snd kv)) kws).
  assert (El : map vtoks args ++ map (fun kv => TWord (fst kv) :: TSym "=" :: vtoks (snd kv)) kws = map arg_toks l).
  { unfold l. rewrite map_app, !map_map. reflexivity. }
  rewrite El. exists (N + N2 + N3 + N4 + S (List.length l)), (S M). intros f rest F.
  destruct (H f ((TSym "(" :: tjoin [TSym ","] (map arg_toks l) ++ [TSym ")"]) ++ rest) ltac:(lia)) as (b & r & E & T).
  exists b, r. split; [rewrite <- app_assoc; exact E|].
  intros g Hg. replace (S M + g) with (M + S g) by lia. rewrite T by lia. cbn [app trailers]. cbn [String.eqb Ascii.eqb Bool.eqb].
  rewrite <- app_assoc. cbn [app].
  rewrite (items_ok (call_arg (expr f 0)) ")" arg_toks l).
  - unfold l. now rewrite split_ok.
  - discriminate.
  - rewrite Forall_forall in Sp, K. intros x r0 Hx. unfold l in Hx. apply in_app_iff in Hx. destruct Hx as [Hx|Hx]; apply in_map_iff in Hx; destruct Hx as (e & <- & He).
    + apply open_not_sym with (plevel e); [|reflexivity]. apply opening_app, exp_opening, Sp, He.
    + reflexivity.
  - rewrite Forall_forall in Sp, K. intros x r0 Hx Hr. unfold l in Hx. apply in_app_iff in Hx. destruct Hx as [Hx|Hx]; apply in_map_iff in Hx; destruct Hx as (e & <- & He).
    + unfold arg_toks, call_arg. cbn [fst snd]. rewrite C; [|exact He|lia|lia|destruct Hr as (q & [->| ->]); exact I].
      destruct Hr as (q & [->| ->]); destruct e; reflexivity.
    + destruct (K e He) as (K1 & K2 & _). unfold arg_toks, call_arg. cbn [fst snd].
      pose proof (C4 (VName (fst e)) (in_map (fun kv => VName (fst kv)) _ _ He) f ltac:(lia) 0 (TSym "=" :: vtoks (snd e) ++ r0) ltac:(cbn; lia) I) as E4.
      cbn [vtoks app] in E4. cbn [app]. rewrite E4. cbn [sym]. cbn [String.eqb Ascii.eqb Bool.eqb].
      rewrite (C3 (snd e) (in_map snd _ _ He)); [reflexivity|lia|lia|destruct Hr as (q & [->| ->]); exact I].
  - lia.
Qed.

Lemma joined_ok : forall w p (l : list (list tok * vexp)) rest,
  (forall x r, In x l -> p (fst x ++ TWord w :: r) = Some (snd x, TWord w :: r)) ->
  (forall x, In x l -> p (fst x ++ rest) = Some (snd x, rest)) -> word w rest = None ->
  forall g, List.length l < g ->
  joined g w p (flat_map (fun x => TWord w :: fst x) l ++ rest) = Some (map snd l, rest).
Proof.
  intros w p l rest H1 H2 W. induction l as [|x l IH]; intros g G; (destruct g as [|g]; [lia|]).
  - cbn [flat_map app joined map]. now rewrite W.
  - cbn [flat_map app joined map word]. rewrite String.eqb_refl.
    replace ((fst x ++ flat_map (fun x => TWord w :: fst x) l) ++ rest) with (fst x ++ (flat_map (fun x => TWord w :: fst x) l ++ rest)) by apply app_assoc.
    assert (E : p (fst x ++ (flat_map (fun x => TWord w :: fst x) l ++ rest)) = Some (snd x, flat_map (fun x => TWord w :: fst x) l ++ rest)).
    { destruct l as [|y l]; [apply H2; now left|]. cbn [flat_map app]. apply H1. now left. }
    rewrite E, IH; [reflexivity| | |cbn in G; lia].
    + intros y r Hy. apply H1. now right.
    + intros y Hy. apply H2. now right.
Qed.

Lemma tjoin_flat : forall t a l, tjoin [t] (a :: l) = a ++ flat_map (fun x => t :: x) l.
Proof.
  intros t a l. revert a. induction l as [|b l IH]; intros a; [cbn; now rewrite app_nil_r|].
  change (tjoin [t] (a :: b :: l)) with (a ++ [t] ++ tjoin [t] (b :: l)). rewrite IH. reflexivity.
Qed.

Lemma tuple_good : forall l, (forall e, l <> [e]) -> Forall (fun e => spelled e = true) l -> Forall good l -> prim (vtoks (VTuple l)) (VTuple l).
Proof.
  intros l H1 Sp G. rewrite tuple_toks by exact H1. destruct (common l G) as (N & C). destruct l as [|a [|b l]].
  - exists 0, 0. intros f rest _. eexists _, rest. split; reflexivity.
  - destruct (H1 a eq_refl).
  - exists (N + S (S (List.length l))), 0. intros f rest F. eexists _, rest. split; [|reflexivity].
    change (tjoin [TSym ","] (map vtoks (a :: b :: l))) with (vtoks a ++ [TSym ","] ++ tjoin [TSym ","] (map vtoks (b :: l))).
    inversion Sp as [|? ? Sa Sl]; subst.
    cbn [app atom]. cbn [String.eqb Ascii.eqb Bool.eqb]. rewrite <- !app_assoc.
    rewrite (open_not_sym (plevel a) ")" _ (opening_app _ _ _ (exp_opening a Sa)) eq_refl).
    rewrite C; [|now left|lia|lia|exact I]. cbn [app sym]. cbn [String.eqb Ascii.eqb Bool.eqb].
    rewrite (sub_items (b :: l) N ")" Sl eq_refl ltac:(discriminate) (fun _ => I)); [reflexivity| |lia|cbn; lia].
    intros e He. apply C. now right.
Qed.

Lemma literal_prim : forall s e, literal s = Some e -> prim [TNum s] e.
Proof. intros s e H. exists 0, 0. intros f rest _. eexists _, rest. split; [|reflexivity]. cbn [app atom]. now rewrite H. Qed.

Lemma hex_literal : forall s, hexadecimal s = true -> literal s = Some (VVerbatim true s).
Proof. intros s H. unfold hexadecimal in H. andb. unfold literal. now rewrite H. Qed.

Lemma decimal_literal : forall s, decimal s = true -> literal s = Some (VVerbatim false s).
Proof.
  intros s H. destruct (decimal_parts s H) as (a & b & -> & Ha & Hb). unfold literal.
  replace (String.prefix "0x" (String.append a (String "." b))) with false.
  - replace (str_contains "." (String.append a (String "." b))) with true; [reflexivity|].
    symmetry. rewrite contains_app. apply orb_true_r.
  - symmetry. unfold digits in Ha. andb. destruct a as [|c a]; [discriminate|]. cbn [String.append String.prefix].
    destruct (ascii_dec "0" c) as [<-|]; [|reflexivity]. destruct a as [|c a]; [reflexivity|].
    cbn [every String.append String.prefix] in *. andb. destruct (ascii_dec "x" c) as [<-|]; [discriminate|reflexivity].
Qed.

Definition sound (e : vexp) : Prop := good e /\ (4 <= binding e -> prim (vtoks e) e).

Lemma prim_sound : forall e, spelled e = true -> plevel e = 12 -> prim (vtoks e) e -> sound e.
Proof.
  intros e Sp L P. split; [|intros _; exact P]. unfold good. rewrite L. apply prim_good; [|exact P].
  rewrite <- L. now apply exp_opening.
Qed.

Lemma prim_paren : forall e k, spelled e = true -> sound e -> 4 <= k -> prim (ptoks (Nat.ltb (binding e) k) (vtoks e)) e.
Proof.
  intros e k Sp (G & P) K. destruct (Nat.ltb (binding e) k) eqn:B.
  - apply paren_prim; [now apply exp_opening|exact G].
  - apply Nat.ltb_ge in B. apply P. lia.
Qed.

Lemma no_prim : forall e, good e -> binding e < 4 -> sound e.
Proof. intros e G B. split; [exact G|lia]. Qed.

Lemma all_spelled : forall l, forallb spelled l = true -> Forall (fun e => spelled e = true) l.
Proof. intros l H. apply Forall_forall. now apply forallb_forall. Qed.

Lemma all_good : forall l, Forall (fun e => spelled e = true -> sound e) l -> forallb spelled l = true -> Forall good l.
Proof.
  intros l F H. rewrite forallb_forall in H. rewrite Forall_forall in *. intros e He. exact (proj1 (F e He (H e He))).
Qed.

Lemma exp_sound : forall e, spelled e = true -> sound e.
Proof.
  intros e. induction e using vexp_ind'; intros Sp; pose proof (exp_opening _ Sp) as O; pose proof Sp as Sp0; cbn [spelled] in Sp; andb.
  - apply prim_sound; [exact Sp0|reflexivity|]. destruct (name_free x Sp) as (K1 & K2).
    exists 0, 0. intros f rest _. eexists _, rest. split; [|reflexivity]. cbn [vtoks app atom]. now rewrite K2, K1.
  - destruct (z <? 0)%Z eqn:Z.
    + apply no_prim; [|cbn; rewrite Z; lia]. destruct z as [|p|p]; try discriminate.
      destruct (prim_good _ _ (I : opening 12 [TNum (show_N (Npos p))]) (int_prim (Npos p))) as (N & G).
      apply lift with (S N); [apply plevel_max|exact O|]. cbn [plevel Z.ltb Z.compare]. intros [|f] F rest St; [lia|].
      cbn [vtoks int_tokens app expr]. cbn [sym]. cbn [String.eqb Ascii.eqb Bool.eqb].
      change (TNum (show_N (Npos p)) :: rest) with ([TNum (show_N (Npos p))] ++ rest). rewrite G; [reflexivity|lia|lia|exact St].
    + apply prim_sound; [exact Sp0|cbn; now rewrite Z|]. destruct z as [|p|p]; [exact (int_prim 0)|exact (int_prim (Npos p))|discriminate].
  - apply prim_sound; [exact Sp0|reflexivity|]. apply literal_prim. destruct h; [now apply hex_literal|now apply decimal_literal].
  - apply prim_sound; [exact Sp0|reflexivity|]. exists 0, 0. intros f rest _. eexists _, rest. split; reflexivity.
  - apply prim_sound; [exact Sp0|reflexivity|]. exists 0, 0. intros f rest _. eexists _, rest. split; reflexivity.
  - apply prim_sound; [exact Sp0|reflexivity|]. exists 0, 0. intros f rest _. destruct b as [[]|]; eexists _, rest; split; reflexivity.
  - apply no_prim; [|cbn; lia].
    assert (S1 : spelled e1 = true) by assumption. assert (S2 : spelled e2 = true) by assumption.
    destruct (IHe1 S1) as (G1 & _), (IHe2 S2) as (G2 & _). destruct (level_binding e1) as (_ & L3 & L4), (level_binding e2) as (_ & M3 & _).
    destruct (paren_good 10 3 e2 S2 G2 ltac:(lia) M3) as (N2 & P2). 
    match goal with K : smem op _ = true |- _ => destruct (binary_rank op K) as [(-> & R)|(N & l & L & R & B)] end.
    + destruct (paren_good 12 4 e1 S1 G1 ltac:(lia) ltac:(lia)) as (N1 & P1).
      apply lift with (S (N1 + N2)); [apply plevel_max|exact O|]. cbn [plevel]. rewrite R. intros [|f] F rest St; [lia|].
      cbn [vtoks expr]. change (left_side "**") with 4. rewrite <- app_assoc. cbn [app].
      rewrite P1; [|lia|lia|cbn; lia]. cbn [sym]. cbn [String.eqb Ascii.eqb Bool.eqb]. rewrite P2; [reflexivity|lia|lia|].
      destruct rest as [|t r]; [exact I|]. cbn [stops] in *. destruct (rank t) as [j|] eqn:Rt; [|exact I].
      destruct (Nat.eq_dec j 10) as [->|]; [|lia]. exfalso. destruct t; cbn [rank] in Rt; try discriminate;
        repeat match type of Rt with (if ?c then _ else _) = _ => destruct c; [discriminate|] end; discriminate.
    + assert (Ls : left_side op = 3) by (unfold left_side; destruct (op =?s "**") eqn:E; [seqb; congruence|reflexivity]).
      destruct (paren_good 10 3 e1 S1 G1 ltac:(lia) L3) as (N1 & P1).
      apply lift with (S (N1 + N2 + 2)); [apply plevel_max|exact O|]. cbn [plevel]. rewrite R. intros [|f] F rest St; [lia|].
      cbn [vtoks]. rewrite Ls, <- app_assoc. cbn [app].
      assert (X : expr (S f) l = fun ts => match expr f (S l) ts with Some (a, r) => chain f (operators l) (expr f (S l)) a r | None => None end)
        by (repeat destruct L as [->|L]; try subst l; reflexivity).
      rewrite X. rewrite P1; [|lia|lia|cbn [stops]; rewrite R; lia].
      destruct f as [|[|f]]; try lia. cbn [chain]. rewrite B. rewrite P2; [|lia|lia|exact (stops_mono _ _ _ St (Nat.le_succ_diag_r l))].
      pose proof (stops_chain l rest L St) as Q. destruct rest as [|[] r]; try reflexivity. cbn [chain]. now rewrite Q.
  - apply no_prim; [|cbn; lia].
    assert (S1 : spelled e1 = true) by assumption. assert (S2 : spelled e2 = true) by assumption.
    destruct (IHe1 S1) as (G1 & _), (IHe2 S2) as (G2 & _). destruct (level_binding e1) as (_ & L3 & L4), (level_binding e2) as (_ & M3 & _).
    destruct (paren_good 10 3 e2 S2 G2 ltac:(lia) M3) as (N2 & P2). destruct (paren_good 10 3 e1 S1 G1 ltac:(lia) L3) as (N1 & P1).
    apply lift with (S (N1 + N2)); [apply plevel_max|exact O|]. cbn [plevel]. intros [|f] F rest St; [lia|].
    cbn [vtoks expr]. rewrite <- !app_assoc.
    assert (C : stops 4 (op_tokens op ++ ptoks (Nat.ltb (binding e2) 3) (vtoks e2) ++ rest) /\
                comparison (op_tokens op ++ ptoks (Nat.ltb (binding e2) 3) (vtoks e2) ++ rest) = Some (op, ptoks (Nat.ltb (binding e2) 3) (vtoks e2) ++ rest)).
    { match goal with K : smem op _ = true |- _ => apply smem_true_In in K; cbn in K; rename K into Ho end.
      repeat (destruct Ho as [<-|Ho]; [split; [cbn; lia|reflexivity]|]). destruct Ho. }
    destruct C as (C1 & C2). rewrite P1; [|lia|lia|exact C1]. rewrite C2.
    rewrite P2; [|lia|lia|eapply stops_mono; [exact St|lia]]. now rewrite (stops_compare rest St).
  - apply no_prim; [|cbn; lia].
    assert (A : forall e, spelled e = true -> sound e -> goodt (ptoks (Nat.ltb (binding e) 2) (vtoks e)) 2 e).
    { intros e Se (Ge & _). apply paren_good; [exact Se|exact Ge|lia|]. apply level_binding. }
    destruct (A e1 ltac:(assumption) (IHe1 ltac:(assumption))) as (N1 & P1).
    set (l := map (fun e => (ptoks (Nat.ltb (binding e) 2) (vtoks e), 2, e)) (e2 :: more)).
    destruct (common2 l) as (N2 & P2).
    { unfold l. apply Forall_map. constructor; [apply A; auto|].
      match goal with K : forallb spelled more = true |- _ => rewrite forallb_forall in K; rename K into Hm end.
      rewrite Forall_forall in *. intros e He. apply A; auto. }
    apply lift with (S (N1 + N2 + S (List.length l))); [apply plevel_max|exact O|]. intros [|f] F rest St; [lia|].
    set (w := if both then "and" else "or").
    assert (Tk : vtoks (VLogic both e1 e2 more) ++ rest =
                 ptoks (Nat.ltb (binding e1) 2) (vtoks e1) ++ (flat_map (fun x => TWord w :: fst x) (map (fun x => (fst (fst x), snd x)) l) ++ rest)).
    { cbn [vtoks]. fold w. rewrite tjoin_flat, <- app_assoc. f_equal. f_equal. unfold l.
      clear. change (map (fun e => ptoks (Nat.ltb (binding e) 2) (vtoks e)) more) with (map (fun e => ptoks (Nat.ltb (binding e) 2) (vtoks e)) more).
      change (ptoks (Nat.ltb (binding e2) 2) (vtoks e2) :: map (fun e => ptoks (Nat.ltb (binding e) 2) (vtoks e)) more)
        with (map (fun e => ptoks (Nat.ltb (binding e) 2) (vtoks e)) (e2 :: more)).
      rewrite map_map. induction (e2 :: more) as [|e m IH]; [reflexivity|]. cbn [map flat_map fst snd]. now rewrite IH. }
    rewrite Tk.
    assert (Sw : forall k r, S (plevel (VLogic both e1 e2 more)) <= k -> stops k (TWord w :: r)).
    { intros k r Hk. unfold w. destruct both; cbn in *; lia. }
    set (p := expr f (S (plevel (VLogic both e1 e2 more)))).
    assert (E1 : p (ptoks (Nat.ltb (binding e1) 2) (vtoks e1) ++ (flat_map (fun x => TWord w :: fst x) (map (fun x => (fst (fst x), snd x)) l) ++ rest)) =
                 Some (e1, flat_map (fun x => TWord w :: fst x) (map (fun x => (fst (fst x), snd x)) l) ++ rest)).
    { unfold p. apply P1; [lia|cbn; destruct both; lia|]. unfold l. cbn [map flat_map fst snd app]. apply Sw. lia. }
    assert (E2 : joined f w p (flat_map (fun x => TWord w :: fst x) (map (fun x => (fst (fst x), snd x)) l) ++ rest) = Some (e2 :: more, rest)).
    { rewrite joined_ok.
      - f_equal. f_equal. unfold l. rewrite !map_map. cbn [snd map]. f_equal. apply map_id.
      - intros x r Hx. apply in_map_iff in Hx. destruct Hx as (y & <- & Hy). cbn [fst snd]. unfold p.
        apply P2; [exact Hy|lia| |apply Sw; lia]. unfold l in Hy. apply in_map_iff in Hy. destruct Hy as (e & <- & _). cbn. destruct both; lia.
      - intros x Hx. apply in_map_iff in Hx. destruct Hx as (y & <- & Hy). cbn [fst snd]. unfold p.
        apply P2; [exact Hy|lia| |eapply stops_mono; [exact St|lia]]. unfold l in Hy. apply in_map_iff in Hy. destruct Hy as (e & <- & _). cbn. destruct both; lia.
      - unfold w. cbn [plevel] in St. destruct both; [exact (stops_word 1 rest St ltac:(lia))|exact (stops_word 0 rest St ltac:(lia))].
      - rewrite map_length. lia. }
    unfold p, w in *. cbn [plevel] in *. destruct both; cbn [expr]; rewrite E1, E2; reflexivity.
  - apply no_prim; [|cbn; lia].
    destruct (paren_good 2 2 e Sp (proj1 (IHe Sp)) ltac:(lia) ltac:(apply level_binding)) as (N & P).
    apply lift with (S N); [apply plevel_max|exact O|]. cbn [plevel]. intros [|f] F rest St; [lia|].
    cbn [vtoks app expr word]. cbn [String.eqb Ascii.eqb Bool.eqb]. rewrite P; [reflexivity|lia|lia|exact St].
  - apply no_prim; [|cbn; lia].
    destruct (paren_good 10 3 e Sp (proj1 (IHe Sp)) ltac:(lia) ltac:(apply level_binding)) as (N & P).
    apply lift with (S N); [apply plevel_max|exact O|]. cbn [plevel]. intros [|f] F rest St; [lia|].
    cbn [vtoks app expr sym]. cbn [String.eqb Ascii.eqb Bool.eqb]. rewrite P; [reflexivity|lia|lia|exact St].
  - apply no_prim; [|cbn; lia]. assert (Se : spelled e = true) by assumption.
    destruct (paren_good 10 3 e Se (proj1 (IHe Se)) ltac:(lia) ltac:(apply level_binding)) as (N & P).
    apply lift with (S N); [apply plevel_max|exact O|]. cbn [plevel]. intros [|f] F rest St; [lia|].
    cbn [vtoks app expr sym]. cbn [String.eqb Ascii.eqb Bool.eqb]. rewrite P; [|lia|lia|exact St].
    unfold negated. destruct e; try reflexivity. match goal with K : (z <? 0)%Z = true |- _ => now rewrite K end.
  - apply prim_sound; [exact Sp0|reflexivity|]. apply prim_attr. apply prim_paren; auto.
  - apply prim_sound; [exact Sp0|reflexivity|]. apply prim_sub.
    + apply prim_paren; auto.
    + constructor; [assumption|now apply all_spelled].
    + constructor; [apply IHe2; assumption|now apply all_good].
  - apply prim_sound; [exact Sp0|reflexivity|]. apply prim_call.
    + apply prim_paren; auto.
    + now apply all_spelled.
    + now apply all_good.
    + match goal with K : forallb _ kws = true |- _ => rewrite forallb_forall in K; rename K into Hk end.
      rewrite Forall_forall in *. intros kv Hv. specialize (Hk _ Hv). andb. repeat split; try assumption.
      match goal with K : forall x, In x kws -> _ |- _ => exact (proj1 (K _ Hv ltac:(assumption))) end.
  - apply prim_sound; [exact Sp0|reflexivity|]. destruct (common l (all_good l H Sp)) as (N & C).
    exists (N + S (List.length l)), 0. intros f rest F. eexists _, rest. split; [|reflexivity].
    cbn [vtoks app atom]. cbn [String.eqb Ascii.eqb Bool.eqb]. rewrite <- app_assoc. cbn [app].
    rewrite (sub_items l N "]" (all_spelled l Sp) eq_refl ltac:(discriminate) (fun _ => Logic.I) C) by lia. reflexivity.
  - apply prim_sound; [exact Sp0|reflexivity|]. destruct l as [|e [|e2 l]].
    + apply tuple_good; [discriminate|constructor|constructor].
    + inversion H as [|? ? He _]; subst. cbn in Sp. andb. destruct (proj1 (He ltac:(assumption))) as (N & C).
      exists (N + 1), 0. intros f rest F. eexists _, rest. split; [|reflexivity].
      cbn [vtoks app atom]. cbn [String.eqb Ascii.eqb Bool.eqb]. rewrite <- app_assoc. cbn [app].
      rewrite (open_not_sym (plevel e) ")" _ (opening_app _ _ _ (exp_opening e ltac:(assumption))) eq_refl).
      rewrite C; [|lia|lia|exact Logic.I]. cbn [sym]. cbn [String.eqb Ascii.eqb Bool.eqb]. destruct f as [|f]; [lia|]. reflexivity.
    + apply tuple_good; [discriminate|now apply all_spelled|now apply all_good].
  - apply prim_sound; [exact Sp0|reflexivity|].
    assert (Sl : forall kv, In kv l -> spelled (fst kv) = true /\ spelled (snd kv) = true).
    { intros kv Hv. rewrite forallb_forall in Sp. specialize (Sp _ Hv). andb. split; assumption. }
    rewrite Forall_forall in H.
    destruct (common (map fst l)) as (N1 & C1).
    { apply Forall_map, Forall_forall. intros kv Hv. apply (H kv Hv), Sl, Hv. }
    destruct (common (map snd l)) as (N2 & C2).
    { apply Forall_map, Forall_forall. intros kv Hv. apply (H kv Hv), Sl, Hv. }
    exists (N1 + N2 + S (List.length l)), 0. intros f rest F. eexists _, rest. split; [|reflexivity].
    cbn [vtoks app atom]. cbn [String.eqb Ascii.eqb Bool.eqb]. rewrite <- app_assoc. cbn [app].
    rewrite (items_ok (dict_item (expr f 0)) "}" (fun kv => vtoks (fst kv) ++ TSym ":" :: vtoks (snd kv)) l); [reflexivity| | | |lia].
    + discriminate.
    + intros kv r Hv. apply open_not_sym with (plevel (fst kv)); [|reflexivity]. do 2 apply opening_app. apply exp_opening, Sl, Hv.
    + intros kv r Hv Hr. unfold dict_item. rewrite <- app_assoc. cbn [app].
      rewrite (C1 _ (in_map fst _ _ Hv)); [|lia|lia|exact Logic.I]. cbn [sym]. cbn [String.eqb Ascii.eqb Bool.eqb].
      rewrite (C2 _ (in_map snd _ _ Hv)); [|lia|lia|destruct Hr as (q & [->| ->]); exact Logic.I]. now destruct kv.
Qed.
