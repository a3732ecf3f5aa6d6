(** The tokens of a Solidity expression or type are read as the expression or type. *)
From Coq Require Import String Ascii List NArith ZArith Bool Lia.
From Verif Require Import Base Json SpecLiteral SpecVyText SpecSolText SpecSolRead LitFacts PathFacts SolReadLex SolReadToks SolTextClaims.
From Verif Require SolText.
Import ListNotations.
Open Scope string_scope.
Open Scope list_scope.

(** ** Where an expression ends *)

(** The tightest level at which the token continues an expression. *)
Definition rank (t : token) : option nat :=
  match t with
  | KSym s =>
      if smem s ["."; "["; "("; "{"] then Some 16
      else if smem s ["++"; "--"] then Some 15
      else if s =?s "**" then Some 14
      else if smem s binary_ops then Some (precedence s)
      else if smem s ("?" :: assignments) then Some 3
      else None
  | KWord w => if (w =?s "payable") || smem w units then Some 16 else None
  | _ => None
  end.

Definition stops (l : nat) (rest : list token) : Prop :=
  match rest with
  | [] => True
  | t :: _ => match rank t with Some j => j < l | None => True end
  end.

Lemma stops_mono : forall l k rest, stops l rest -> l <= k -> stops k rest.
Proof. intros l k [|t r] H L; [exact Logic.I|]. cbn in *. destruct (rank t); [lia|exact Logic.I]. Qed.

Ltac seqb := repeat match goal with H : (?a =?s ?b) = true |- _ => apply String.eqb_eq in H; subst end.

Definition middle (l : nat) : Prop := 4 <= l <= 13.

Lemma op_rank : forall s l, smem s (operators l) = true -> middle l /\ rank (KSym s) = Some l /\ smem s binary_ops = true /\ precedence s = l.
Proof.
  intros s l H. apply smem_In in H. unfold middle.
  do 14 (destruct l as [|l]; [cbn in H; first [contradiction|repeat (destruct H as [<-|H]; [split; [lia|repeat split; reflexivity]|]); destruct H]|]).
  destruct H.
Qed.

Lemma binary_level : forall op, smem op binary_ops = true ->
  (op = "**" /\ rank (KSym op) = Some 14 /\ precedence op = 14) \/
  (op <> "**" /\ middle (precedence op) /\ rank (KSym op) = Some (precedence op) /\ smem op (operators (precedence op)) = true).
Proof.
  intros op H. apply smem_In in H. cbn in H. unfold middle.
  repeat (destruct H as [<-|H];
    [first [left; repeat split; reflexivity|right; split; [discriminate|]; split; [cbn; lia|split; reflexivity]]|]).
  destruct H.
Qed.

Lemma stops_chain : forall l rest, stops l rest -> match rest with KSym s :: _ => smem s (operators l) = false | _ => True end.
Proof.
  intros l [|[]] H; try exact Logic.I. destruct (smem s (operators l)) eqn:E; [|reflexivity].
  exfalso. cbn [stops] in H. destruct (op_rank s l E) as (_ & R & _). rewrite R in H. lia.
Qed.

Lemma stops_power : forall rest, stops 14 rest -> sym "**" rest = None.
Proof. intros [|[]] H; try reflexivity. cbn [sym]. destruct (s =?s "**") eqn:E; [|reflexivity]. seqb. cbn in H. lia. Qed.

Lemma stops_step : forall rest, stops 15 rest -> match rest with KSym s :: _ => smem s ["++"; "--"] = false | _ => True end.
Proof.
  intros [|[]] H; try exact Logic.I. destruct (smem s ["++"; "--"]) eqn:E; [|reflexivity]. exfalso. apply smem_In in E. cbn in E.
  destruct E as [<-|[<-|[]]]; cbn in H; lia.
Qed.

Lemma stops_assign : forall rest, stops 3 rest -> match rest with KSym s :: _ => (s =?s "?") = false /\ smem s assignments = false | _ => True end.
Proof.
  intros [|[]] H; try exact Logic.I. destruct (s =?s "?") eqn:E; [seqb; cbn in H; lia|]. split; [reflexivity|].
  destruct (smem s assignments) eqn:E2; [|reflexivity]. exfalso. apply smem_In in E2. cbn in E2.
  repeat (destruct E2 as [<-|E2]; [cbn in H; lia|]). destruct E2.
Qed.

Lemma stops_trailers : forall g ex a rest, stops 16 rest -> trailers (Datatypes.S g) ex a rest = Some (a, rest).
Proof.
  intros g ex a [|[]] H; try reflexivity. cbn [trailers].
  destruct (s =?s ".") eqn:E1; [seqb; cbn in H; lia|]. destruct (s =?s "[") eqn:E2; [seqb; cbn in H; lia|].
  destruct (s =?s "(") eqn:E3; [seqb; cbn in H; lia|]. destruct (s =?s "{") eqn:E4; [seqb; cbn in H; lia|reflexivity].
Qed.

(** What may come after an atom, whether or not it is the end. *)
Definition near (e : sexp) (rest : list token) : Prop :=
  match rest with
  | KWord w :: _ => (w =?s "payable") || smem w units = false
  | KSym s :: _ => is_new e = true -> s <> "." /\ s <> "["
  | _ => True
  end.

Lemma stops_near : forall e rest, stops 16 rest -> near e rest.
Proof.
  intros e [|[] r] H; try exact Logic.I; cbn in H |- *.
  - destruct (_ || _); [lia|reflexivity].
  - intros _. split; intros ->; cbn in H; lia.
Qed.

(** ** How the tokens of an expression begin *)

Definition starts (l : nat) (t : token) : Prop :=
  match t with
  | KWord w => w = "delete" -> l <= 15
  | KSym s => In s ["("; "["] \/ In s prefixes /\ l <= 15
  | _ => True
  end.
Definition opening (l : nat) (ts : list token) : Prop := match ts with t :: _ => starts l t | [] => False end.

Lemma opening_mono : forall l k ts, opening l ts -> k <= l -> opening k ts.
Proof.
  intros l k [|[]] H L; cbn in *; auto.
  - intros E. specialize (H E). lia.
  - destruct H as [H|(H & K)]; auto. right. split; auto. lia.
Qed.
Lemma opening_app : forall l ts r, opening l ts -> opening l (ts ++ r).
Proof. intros l [|t ts] r H; [destruct H|exact H]. Qed.

Lemma name_not : forall x w, name x = true -> reserved w = true -> x <> w.
Proof. intros x w H R ->. apply name_free in H. congruence. Qed.

Lemma elementary_not : forall x w, elementary x = true -> elementary w = false -> x <> w.
Proof. intros x w H R ->. congruence. Qed.

Lemma path_cons : forall x, path_name x = true -> exists p l, parts x = p :: l /\ name p = true /\ forallb name l = true /\
  path_toks x = KWord p :: flat_map (fun q => [KSym "."; KWord q]) l.
Proof.
  intros x H. unfold path_name in H. unfold path_toks. pose proof (parts_nonempty x) as N. destruct (parts x) as [|p l]; [congruence|].
  cbn in H. apply andb_true_iff in H. destruct H as (Hp & Hl). exists p, l. split; [reflexivity|]. split; [exact Hp|]. split; [exact Hl|].
  clear. revert p. induction l as [|q l IH]; intros p; [reflexivity|].
  change (tjoin [KSym "."] (map (fun p => [KWord p]) (p :: q :: l))) with ([KWord p] ++ [KSym "."] ++ tjoin [KSym "."] (map (fun p => [KWord p]) (q :: l))).
  rewrite IH. reflexivity.
Qed.

Lemma tightness_max : forall e, spelled e = true -> 3 <= tightness e <= 16.
Proof.
  intros e H. destruct e; cbn [tightness]; try lia. cbn [spelled] in H. andb.
  match goal with K : smem op binary_ops = true |- _ => destruct (binary_level op K) as [(_ & _ & ->)|(_ & M & _)]; unfold middle in *; lia end.
Qed.

Lemma leb : forall a b, Nat.leb a b = true -> a <= b.
Proof. intros. now apply Nat.leb_le. Qed.

Lemma exp_opening : forall e, is_type e = false -> spelled e = true -> opening (tightness e) (xtoks e).
Proof.
  intros e. induction e using sexp_ind2; intros T Sp; cbn [spelled] in Sp; andb; cbn [xtoks]; try discriminate T;
    repeat match goal with K : negb (is_type _) = true |- _ => apply negb_true_iff in K end;
    repeat match goal with K : Nat.leb _ _ = true |- _ => apply leb in K end.
  - intros ->. apply orb_true_iff in Sp. destruct Sp as [Sp|Sp]; discriminate Sp.
  - destruct (smem s ["true"; "false"]) eqn:E; [|exact Logic.I]. intros ->. discriminate E.
  - exact Logic.I.
  - exact Logic.I.
  - exact Logic.I.
  - apply opening_app. apply opening_mono with (tightness e1); [auto|]. cbn [tightness].
    match goal with K : smem op binary_ops = true |- _ => destruct (binary_level op K) as [(-> & _ & ->)|(N & M & _)] end.
    + cbn in *. lia.
    + unfold left_needs in *. destruct (op =?s "**") eqn:E; [seqb; congruence|assumption].
  - destruct (op =?s "delete") eqn:E.
    + intros _. cbn. lia.
    + right. split; [|cbn; lia]. match goal with K : smem op _ = true |- _ => apply smem_In in K; destruct K as [<-|K]; [discriminate E|exact K] end.
  - apply opening_app. apply opening_mono with (tightness e); [auto|]. cbn. lia.
  - apply opening_app. apply opening_mono with (tightness e1); [auto|]. cbn. lia.
  - apply opening_app. apply opening_mono with (tightness e1); [auto|]. cbn. lia.
  - apply opening_app. apply opening_mono with (tightness e); [auto|]. cbn. lia.
  - apply opening_app. apply opening_mono with (tightness e); [auto|]. cbn. lia.
  - apply opening_app. apply opening_mono with (tightness e); [auto|]. cbn. lia.
  - apply opening_app. apply opening_mono with (tightness e); [auto|]. cbn. lia.
  - apply opening_app. apply opening_mono with (tightness e); [auto|]. cbn. lia.
  - apply opening_app. apply opening_mono with (tightness e); [auto|]. cbn. lia.
  - left. cbn. tauto.
  - left. cbn. tauto.
  - intros E. discriminate E.
  - intros ->. apply orb_true_iff in Sp. destruct Sp as [Sp|Sp]; discriminate Sp.
Qed.

(** ** Lists *)

Lemma open_not_sym : forall l s ts, opening l ts -> smem s ("(" :: "[" :: prefixes) = false -> sym s ts = None.
Proof.
  intros l s [|[]] H N; try reflexivity. cbn [sym]. destruct (s0 =?s s) eqn:E; [|reflexivity]. seqb.
  assert (K : smem s ("(" :: "[" :: prefixes) = true).
  { apply smem_In. cbn in H. cbn. tauto. }
  congruence.
Qed.

Definition between_ok (close : string) (rest : list token) : Prop := exists r, rest = KSym "," :: r \/ rest = KSym close :: r.

Lemma items1_ok : forall {A} (p : parser A) (close : string) (toks : A -> list token) (l : list A), l <> [] ->
  close <> "," ->
  (forall a rest, In a l -> between_ok close rest -> p (toks a ++ rest) = Some (a, rest)) ->
  forall g rest, List.length l <= g -> items1 g p close (commas (map toks l) ++ KSym close :: rest) = Some (l, rest).
Proof.
  intros A p close toks l Ne Hc. induction l as [|a l IH]; intros H2 g rest Hg; [congruence|]. clear Ne. destruct g as [|g]; [cbn in Hg; lia|].
  destruct l as [|b l].
  - unfold commas. cbn [map tjoin items1]. rewrite H2; [|left; reflexivity|exists rest; now right].
    cbn [then_ sym]. now rewrite String.eqb_refl.
  - change (commas (map toks (a :: b :: l))) with (toks a ++ [KSym ","] ++ commas (map toks (b :: l))).
    rewrite <- !app_assoc. cbn [items1].
    rewrite H2; [|left; reflexivity|eexists; left; reflexivity]. cbn [then_ app sym].
    rewrite (proj2 (String.eqb_neq "," close)) by congruence. rewrite String.eqb_refl. cbn [after].
    rewrite IH; [reflexivity|discriminate| |cbn in *; lia].
    intros x r Hx. apply H2. now right.
Qed.

Lemma items_ok : forall {A} (p : parser A) (close : string) (toks : A -> list token) (l : list A),
  close <> "," ->
  (forall a r, In a l -> sym close (toks a ++ r) = None) ->
  (forall a rest, In a l -> between_ok close rest -> p (toks a ++ rest) = Some (a, rest)) ->
  forall g rest, List.length l <= g -> items g p close (commas (map toks l) ++ KSym close :: rest) = Some (l, rest).
Proof.
  intros A p close toks l Hc H1 H2 g rest Hg. unfold items. destruct l as [|a l].
  - cbn [map commas tjoin app sym]. now rewrite String.eqb_refl.
  - replace (sym close (commas (map toks (a :: l)) ++ KSym close :: rest)) with (@None (list token)).
    + apply items1_ok; [discriminate|exact Hc|exact H2|exact Hg].
    + symmetry. destruct l as [|b l].
      * unfold commas. cbn [map tjoin]. apply H1. now left.
      * change (commas (map toks (a :: b :: l))) with (toks a ++ [KSym ","] ++ commas (map toks (b :: l))). rewrite <- app_assoc. apply H1. now left.
Qed.

(** ** Expressions *)

Definition goodt (ts : list token) (L : nat) (e : sexp) : Prop :=
  exists N, forall f, N <= f -> forall l rest, 3 <= l <= L -> stops l rest -> expr f l (ts ++ rest) = Some (e, rest).
Definition good (e : sexp) : Prop := goodt (xtoks e) (tightness e) e.

(** An atom and what follows it, up to the end of [e]. *)
Definition prim (e : sexp) : Prop :=
  exists N M, forall f rest, N <= f -> near e rest -> exists a r, atom f (expr f 3) (xtoks e ++ rest) = Some (a, r) /\
    forall g, N <= g -> trailers (M + g) (expr f 3) a r = trailers g (expr f 3) e rest.

Lemma expr_middle : forall f l ts, middle l -> expr (Datatypes.S f) l ts = then_ (expr f (Datatypes.S l) ts) (chain f (operators l) (expr f (Datatypes.S l))).
Proof. intros f l ts M. unfold middle in M. do 14 (destruct l as [|l]; [try lia; reflexivity|]). lia. Qed.

Lemma lower : forall ts e l f rest, 3 <= l < 16 -> opening (Datatypes.S l) ts ->
  (forall rest, stops (Datatypes.S l) rest -> expr (Datatypes.S f) (Datatypes.S l) (ts ++ rest) = Some (e, rest)) -> stops l rest ->
  expr (Datatypes.S (Datatypes.S f)) l (ts ++ rest) = Some (e, rest).
Proof.
  intros ts e l f rest L O H St. pose proof (H rest (stops_mono _ _ _ St (Nat.le_succ_diag_r l))) as E. clear H.
  remember (Datatypes.S f) as g eqn:Hg.
  destruct (Nat.eq_dec l 3) as [->|N3]; [|destruct (Nat.eq_dec l 14) as [->|N14]; [|destruct (Nat.eq_dec l 15) as [->|N15]]].
  - cbn [expr]. rewrite E. cbn [then_]. pose proof (stops_assign rest St) as Q. destruct rest as [|[] r]; try reflexivity. destruct Q as (-> & ->). reflexivity.
  - cbn [expr]. rewrite E. cbn [then_]. now rewrite (stops_power rest St).
  - cbn [expr]. rewrite E. cbn [then_]. pose proof (stops_step rest St) as Q.
    assert (P : match rest with KSym s :: r' => if smem s ["++"; "--"] then Some (XPost s e, r') else Some (e, rest) | _ => Some (e, rest) end = Some (e, rest)).
    { destruct rest as [|[] r]; try reflexivity. now rewrite Q. }
    rewrite P. destruct ts as [|[] ts]; cbn in O; [destruct O|..]; cbn [app]; try reflexivity.
    + destruct (s =?s "delete") eqn:D; [|reflexivity]. seqb. specialize (O eq_refl). lia.
    + destruct (smem s prefixes) eqn:D; [|reflexivity]. destruct O as [[<-|[<-|[]]]|(_ & O)]; try discriminate D. lia.
  - rewrite expr_middle by (unfold middle; lia). rewrite E. cbn [then_]. pose proof (stops_chain l rest St) as Q. subst g.
    destruct rest as [|[] r]; try reflexivity. cbn [chain]. now rewrite Q.
Qed.

Lemma lift : forall ts L e N, 3 <= L <= 16 -> opening L ts ->
  (forall f, N <= f -> forall rest, stops L rest -> expr f L (ts ++ rest) = Some (e, rest)) -> goodt ts L e.
Proof.
  intros ts L e N B O H. exists (Datatypes.S N + 16). intros f F l rest Ll St.
  assert (K : forall k f rest l, 3 <= l -> Datatypes.S N + k <= f -> l + k = L -> stops l rest -> expr f l (ts ++ rest) = Some (e, rest)).
  { clear f F l rest Ll St. induction k as [|k IH]; intros f rest l Lo F Ll St.
    - replace l with L in * by lia. apply H; [lia|exact St].
    - destruct f as [|[|f]]; try lia. apply lower.
      + lia.
      + apply opening_mono with L; [exact O|lia].
      + intros r Hr. apply IH; [lia|lia|lia|exact Hr].
      + exact St. }
  apply K with (L - l); [lia|lia|lia|exact St].
Qed.

Lemma prim_good : forall e, opening 16 (xtoks e) -> prim e -> goodt (xtoks e) 16 e.
Proof.
  intros e O (N & M & H). apply lift with (Datatypes.S (N + M + 1)); [lia|exact O|]. intros [|f] F rest St; [lia|].
  cbn [expr]. destruct (H f rest ltac:(lia) (stops_near e rest St)) as (a & r & -> & T). cbn [then_].
  replace (trailers f (expr f 3) a r) with (trailers (M + Datatypes.S (f - M - 1)) (expr f 3) a r) by (f_equal; lia).
  rewrite T by lia. apply stops_trailers. exact St.
Qed.

Lemma goodt_mono : forall ts L k e, goodt ts L e -> k <= L -> goodt ts k e.
Proof. intros ts L k e (N & H) K. exists N. intros f F l rest Ll St. apply H; [exact F|lia|exact St]. Qed.

(** Operators of one level, from the left. *)
Definition spine (l : nat) (e : sexp) : Prop :=
  exists N M, forall f rest, N <= f -> stops (Datatypes.S l) rest -> exists a r, expr f (Datatypes.S l) (xtoks e ++ rest) = Some (a, r) /\
    forall g, N <= g -> chain (M + g) (operators l) (expr f (Datatypes.S l)) a r = chain g (operators l) (expr f (Datatypes.S l)) e rest.

Lemma good_spine : forall l e, good e -> 3 <= l < tightness e -> spine l e.
Proof.
  intros l e (N & H) L. exists N, 0. intros f rest F St. exists e, rest. split; [|reflexivity]. apply H; [exact F|lia|exact St].
Qed.

Lemma spine_good : forall l e, middle l -> opening l (xtoks e) -> spine l e -> goodt (xtoks e) l e.
Proof.
  intros l e Ml O (N & M & H). apply lift with (Datatypes.S (N + M + 1)); [unfold middle in Ml; lia|exact O|]. intros [|f] F rest St; [lia|].
  rewrite expr_middle by exact Ml. destruct (H f rest ltac:(lia) (stops_mono _ _ _ St (Nat.le_succ_diag_r l))) as (a & r & -> & T). cbn [then_].
  replace (chain f (operators l) (expr f (Datatypes.S l)) a r) with (chain (M + Datatypes.S (f - M - 1)) (operators l) (expr f (Datatypes.S l)) a r) by (f_equal; lia).
  rewrite T by lia. pose proof (stops_chain l rest St) as Q. destruct rest as [|[] rest]; try reflexivity. cbn [chain]. now rewrite Q.
Qed.

Definition sound (e : sexp) : Prop :=
  good e /\ (16 <= tightness e -> prim e) /\ (forall l, middle l -> l <= tightness e -> spine l e).

Lemma common : forall l, Forall good l -> exists N, forall e, In e l -> forall f, N <= f -> forall k rest, 3 <= k <= tightness e -> stops k rest ->
  expr f k (xtoks e ++ rest) = Some (e, rest).
Proof.
  induction 1 as [|e l (N & H) F (N2 & IH)]; [exists 0; intros e []|].
  exists (N + N2). intros x [<-|Hx] f Hf; [apply H; lia|apply IH; [exact Hx|lia]].
Qed.

(** ** Types *)

Definition base (fuel : nat) (ex : parser sexp) (ts : list token) : option (sexp * list token) :=
  match ts with
  | KWord w :: r =>
      if w =?s "mapping" then
        after (sym "(" r) (fun r => then_ (typ fuel ex r) (fun k r =>
          let (kn, r) := maybe_ident r in
          after (sym "=>" r) (fun r => then_ (typ fuel ex r) (fun v r =>
            let (vn, r) := maybe_ident r in
            after (sym ")" r) (fun r => Some (TMap k kn v vn, r))))))
      else if w =?s "function" then
        after (sym "(" r) (fun r => then_ (items fuel (plain_param (typ fuel ex)) ")" r) (fun ps r =>
          let (v, r) := maybe_word ["external"; "internal"] r in
          let (m, r) := maybe_word mutability_words r in
          match word "returns" r with
          | Some r =>
              after (sym "(" r) (fun r => then_ (items1 fuel (plain_param (typ fuel ex)) ")" r) (fun rs r =>
                Some (TFun ps (v =?s "external") m rs, r)))
          | None => Some (TFun ps (v =?s "external") m [], r)
          end))
      else if elementary w then
        match word "payable" r with
        | Some r' => if w =?s "address" then Some (TName w true, r') else Some (TName w false, r)
        | None => Some (TName w false, r)
        end
      else then_ (path ts) (fun x r => Some (TUser x, r))
  | _ => None
  end.

Lemma typ_base : forall g ex ts, typ (Datatypes.S g) ex ts = then_ (base g ex ts) (brackets g ex).
Proof. reflexivity. Qed.

Definition tnear (t : sexp) (rest : list token) : Prop :=
  match rest with
  | KWord w :: _ => w <> "payable" /\ (plain_type t = false -> ~ In w ["external"; "internal"; "pure"; "view"; "returns"])
  | KSym s :: _ => s <> "."
  | _ => True
  end.
Definition tstops (t : sexp) (rest : list token) : Prop := tnear t rest /\ sym "[" rest = None.

Definition tprim (t : sexp) : Prop :=
  exists N M, forall f g rest, N <= f -> N <= g -> tnear t rest -> exists a r, base g (expr f 3) (xtoks t ++ rest) = Some (a, r) /\
    forall h, N <= h -> brackets (M + h) (expr f 3) a r = brackets h (expr f 3) t rest.

Lemma tprim_good : forall t, tprim t -> exists N, forall f g, N <= f -> N <= g -> forall rest, tstops t rest ->
  typ g (expr f 3) (xtoks t ++ rest) = Some (t, rest).
Proof.
  intros t (N & M & H). exists (Datatypes.S (N + M + 1)). intros f [|g] F G rest (St1 & St2); [lia|].
  rewrite typ_base. destruct (H f g rest ltac:(lia) ltac:(lia) St1) as (a & r & -> & T). cbn [then_].
  replace (brackets g (expr f 3) a r) with (brackets (M + Datatypes.S (g - M - 1)) (expr f 3) a r) by (f_equal; lia).
  rewrite T by lia. cbn [brackets]. now rewrite St2.
Qed.

Definition tgood (t : sexp) : Prop := exists N, forall f g, N <= f -> N <= g -> forall rest, tstops t rest ->
  typ g (expr f 3) (xtoks t ++ rest) = Some (t, rest).

Lemma tcommon : forall l, Forall tgood l -> exists N, forall t, In t l -> forall f g, N <= f -> N <= g -> forall rest, tstops t rest ->
  typ g (expr f 3) (xtoks t ++ rest) = Some (t, rest).
Proof.
  induction 1 as [|e l (N & H) F (N2 & IH)]; [exists 0; intros e []|].
  exists (N + N2). intros x [<-|Hx] f g Hf Hg; [apply H; lia|apply IH; [exact Hx|lia|lia]].
Qed.

Lemma ident_name : forall x r, name x = true -> ident (KWord x :: r) = Some (x, r).
Proof. intros x r H. cbn. now rewrite (name_free x H). Qed.

(** A word that may be missing, before something that is not a word. *)
Definition not_word (ts : list token) : Prop := match ts with KWord _ :: _ => False | _ => True end.

Lemma maybe_ident_ok : forall x r, blank_or name x = true -> not_word r -> maybe_ident (wtoks x ++ r) = (x, r).
Proof.
  intros x r H N. unfold blank_or in H. unfold maybe_ident, wtoks. destruct (x =?s "") eqn:E.
  - seqb. cbn [app]. destruct r as [|[] r]; try reflexivity. destruct N.
  - cbn [app]. now rewrite (ident_name x r H).
Qed.

Lemma maybe_word_some : forall l x r, smem x l = true -> maybe_word l (KWord x :: r) = (x, r).
Proof. intros l x r H. cbn. now rewrite H. Qed.
Lemma maybe_word_none : forall l ts, match ts with KWord x :: _ => smem x l = false | _ => True end -> maybe_word l ts = ("", ts).
Proof. intros l [|[] r] H; try reflexivity. cbn. now rewrite H. Qed.

Lemma maybe_word_ok : forall l x r, blank_or (fun x => smem x l) x = true -> match r with KWord y :: _ => smem y l = false | _ => True end ->
  maybe_word l (wtoks x ++ r) = (x, r).
Proof.
  intros l x r H N. unfold blank_or in H. unfold wtoks. destruct (x =?s "") eqn:E.
  - seqb. cbn [app]. now apply maybe_word_none.
  - cbn [app]. now apply maybe_word_some.
Qed.

Lemma dotted_ok : forall l rest, forallb name l = true -> match rest with KSym s :: _ => s <> "." | _ => True end ->
  dotted (flat_map (fun q => [KSym "."; KWord q]) l ++ rest) = (fold_right (fun q s => String "." (String.append q s)) "" l, rest).
Proof.
  induction l as [|q l IH]; intros rest H N.
  - cbn [flat_map app fold_right]. destruct rest as [|[] rest]; try reflexivity. cbn [dotted]. destruct rest as [|[] r]; try reflexivity.
    rewrite (proj2 (String.eqb_neq s ".")) by exact N. reflexivity.
  - cbn [forallb] in H. andb. cbn [flat_map app dotted]. cbn [String.eqb Ascii.eqb Bool.eqb andb]. rewrite (name_free q H). cbn [negb].
    rewrite IH; [reflexivity|assumption|exact N].
Qed.

Lemma join_fold : forall p l, sjoin "." (p :: l) = String.append p (fold_right (fun q s => String "." (String.append q s)) "" l).
Proof.
  intros p l. revert p. induction l as [|q l IH]; intros p; [cbn; now rewrite append_nil_s|]. rewrite join_cons, IH. reflexivity.
Qed.

Lemma path_ok : forall x rest, path_name x = true -> match rest with KSym s :: _ => s <> "." | _ => True end ->
  path (path_toks x ++ rest) = Some (x, rest).
Proof.
  intros x rest H N. destruct (path_cons x H) as (p & l & E & Hp & Hl & ->). unfold path. cbn [app]. rewrite (ident_name p _ Hp). cbn [then_].
  rewrite (dotted_ok l rest Hl N). rewrite <- join_fold, <- E, <- parts_join. reflexivity.
Qed.

Lemma tnear_words : forall t w r, tnear t (KWord w :: r) -> plain_type t = false -> ~ In w ["external"; "internal"; "pure"; "view"; "payable"; "returns"].
Proof. intros t w r (A & B) P I. specialize (B P). cbn in I, B. intuition congruence. Qed.

(** ** Atoms *)

Lemma prim_atom : forall e, (exists N, forall f rest, N <= f -> near e rest -> atom f (expr f 3) (xtoks e ++ rest) = Some (e, rest)) -> prim e.
Proof.
  intros e (N & H). exists N, 0. intros f rest F Ne. exists e, rest. split; [now apply H|reflexivity].
Qed.

Lemma prim_trail : forall a e tr, xtoks e = xtoks a ++ tr -> prim a -> (forall rest, near a (tr ++ rest)) ->
  (exists N, forall f g rest, N <= f -> N <= g -> trailers (Datatypes.S g) (expr f 3) a (tr ++ rest) = trailers g (expr f 3) e rest) -> prim e.
Proof.
  intros a e tr E (N1 & M1 & H1) Ne (N & H). exists (N + N1), (M1 + 1). intros f rest F _.
  destruct (H1 f (tr ++ rest) ltac:(lia) (Ne rest)) as (b & r & A & T). exists b, r. rewrite E, <- app_assoc. split; [exact A|].
  intros g G. replace (M1 + 1 + g) with (M1 + Datatypes.S g) by lia. rewrite T by lia. apply H; lia.
Qed.

Lemma eqb_not : forall a b, a <> b -> (a =?s b) = false.
Proof. intros. now apply String.eqb_neq. Qed.

Lemma name_unequal : forall x w, name x = true -> reserved w = true -> (x =?s w) = false.
Proof. intros. apply eqb_not. now apply name_not. Qed.
Lemma name_no : forall x l, name x = true -> forallb reserved l = true -> smem x l = false.
Proof.
  intros x l H F. destruct (smem x l) eqn:E; [|reflexivity]. exfalso. apply smem_In in E. rewrite forallb_forall in F. specialize (F x E).
  apply name_free in H. congruence.
Qed.
Lemma name_elementary : forall x, name x = true -> elementary x = false.
Proof.
  intros x H. apply name_free in H. unfold reserved in H. destruct (elementary x); [|reflexivity]. rewrite orb_true_r in H. discriminate.
Qed.
Lemma elementary_no : forall x w, elementary x = true -> elementary w = false -> (x =?s w) = false.
Proof. intros. apply eqb_not. now apply elementary_not. Qed.

Lemma atom_name : forall f ex x r, name x = true -> atom f ex (KWord x :: r) = Some (XId x, r).
Proof.
  intros f ex x r H. unfold atom. rewrite (name_unequal x "new" H eq_refl), (name_no x ["true"; "false"] H eq_refl), (name_elementary x H),
    (name_unequal x "payable" H eq_refl), (name_unequal x "type" H eq_refl), (name_free x H). reflexivity.
Qed.

Lemma atom_elementary : forall f ex x r, elementary x = true -> atom f ex (KWord x :: r) = Some (XType x, r).
Proof.
  intros f ex x r H. unfold atom. rewrite (elementary_no x "new" H eq_refl), H.
  replace (smem x ["true"; "false"]) with false; [reflexivity|]. symmetry. destruct (smem x ["true"; "false"]) eqn:E; [|reflexivity].
  apply smem_In in E. destruct E as [<-|[<-|[]]]; discriminate H.
Qed.

Lemma atom_number : forall f ex s r, match r with KWord u :: _ => smem u units = false | _ => True end -> atom f ex (KNum s :: r) = Some (XLit s None, r).
Proof. intros f ex s [|[] r] H; try reflexivity. cbn [atom]. now rewrite H. Qed.

(** ** Words after types *)

Lemma tstops_sym : forall t s r, s <> "." -> s <> "[" -> tstops t (KSym s :: r).
Proof. intros t s r A B. split; [exact A|]. cbn [sym]. now rewrite eqb_not. Qed.

Lemma tstops_word : forall t w r, ~ In w ["external"; "internal"; "pure"; "view"; "returns"; "payable"] -> tstops t (KWord w :: r).
Proof. intros t w r H. split; [|reflexivity]. cbn in H. split; [intros ->; tauto|]. intros _ K. cbn in K. tauto. Qed.

Lemma tstops_name : forall t w r, name w = true -> tstops t (KWord w :: r).
Proof.
  intros t w r H. apply tstops_word. intros K. apply smem_In in K. rewrite name_no in K; [discriminate|exact H|reflexivity].
Qed.

Lemma tstops_wtoks : forall t x r, (x <> "" -> tstops t (KWord x :: r)) -> tstops t r -> tstops t (wtoks x ++ r).
Proof. intros t x r A B. unfold wtoks. destruct (x =?s "") eqn:E; [exact B|]. cbn [app]. apply A. intros ->. discriminate E. Qed.

Lemma location_not : forall x, smem x location_words = true -> ~ In x ["external"; "internal"; "pure"; "view"; "returns"; "payable"].
Proof. intros x H K. apply smem_In in H. cbn in H, K. intuition congruence. Qed.

Definition plain_toks (p : sexp * string * string) : list token := xtoks (fst (fst p)) ++ wtoks (snd (fst p)) ++ wtoks (snd p).

Lemma blank_cases : forall p x, blank_or p x = true -> x = "" \/ x <> "" /\ p x = true.
Proof. intros p x H. unfold blank_or in H. destruct (x =?s "") eqn:E; [left; now apply String.eqb_eq|]. right. split; [intros ->; discriminate|exact H]. Qed.

Lemma wtoks_word : forall x, x <> "" -> wtoks x = [KWord x].
Proof. intros x H. unfold wtoks. now rewrite eqb_not. Qed.

Lemma plain_param_ok : forall (ty : parser sexp) p close rest,
  blank_or (fun l => smem l location_words) (snd (fst p)) = true -> blank_or name (snd p) = true -> between_ok close rest -> close = ")" ->
  (forall rest, tstops (fst (fst p)) rest -> ty (xtoks (fst (fst p)) ++ rest) = Some (fst (fst p), rest)) ->
  plain_param ty (plain_toks p ++ rest) = Some (p, rest).
Proof.
  intros ty ((t, l), x) close rest Hl Hx (r & B) Hc H. cbn [fst snd] in *. subst close. unfold plain_param, plain_toks. cbn [fst snd]. rewrite <- !app_assoc.
  rewrite H.
  - cbn [then_]. rewrite maybe_word_ok; [|exact Hl|].
    + rewrite maybe_ident_ok; [reflexivity|exact Hx|destruct B as [-> | ->]; exact Logic.I].
    + destruct (blank_cases _ _ Hx) as [->|(E & N)]; [destruct B as [-> | ->]; exact Logic.I|]. rewrite wtoks_word by exact E. cbn [app]. now apply name_no.
  - assert (R : tstops t rest) by (destruct B as [-> | ->]; apply tstops_sym; discriminate).
    apply tstops_wtoks.
    + intros E. apply tstops_word. destruct (blank_cases _ _ Hl) as [->|(_ & M)]; [congruence|]. now apply location_not.
    + apply tstops_wtoks; [|exact R]. intros E. apply tstops_name. destruct (blank_cases _ _ Hx) as [->|(_ & M)]; [congruence|exact M].
Qed.

Lemma type_not_close : forall t r, spelled t = true -> is_type t = true -> sym ")" (xtoks t ++ r) = None.
Proof.
  intros t. induction t using sexp_ind2; intros r Sp T; try discriminate T; cbn [spelled] in Sp; cbn [xtoks]; andb; try reflexivity.
  - destruct (path_cons x Sp) as (p & l & _ & _ & _ & ->). reflexivity.
  - rewrite <- app_assoc. auto.
Qed.

Lemma word_app_none : forall w ts, match ts with KWord x :: _ => x <> w | _ => True end -> word w ts = None.
Proof. intros w [|[] r] H; try reflexivity. cbn [word]. now rewrite eqb_not. Qed.
