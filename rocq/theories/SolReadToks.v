(** The tokens of the text of a Solidity program: expressions and types. *)
From Coq Require Import String Ascii List NArith ZArith Bool Lia.
From Verif Require Import Base Json SpecLiteral SpecVyText SpecSolText SpecSolRead LitFacts PathFacts SolReadLex SolTextClaims.
From Verif Require SolText.
Import ListNotations.
Open Scope string_scope.
Open Scope list_scope.

(** ** The tokens *)

Fixpoint tjoin (sep : list token) (l : list (list token)) : list token :=
  match l with
  | [] => []
  | [a] => a
  | a :: l => a ++ sep ++ tjoin sep l
  end.

Definition commas : list (list token) -> list token := tjoin [KSym ","].
Definition wtoks (s : string) : list token := if s =?s "" then [] else [KWord s].
Definition ftoks (b : bool) (s : string) : list token := if b then [KWord s] else [].
Definition otoks {A} (f : A -> list token) (o : option A) : list token := match o with Some a => f a | None => [] end.
Definition path_toks (x : string) : list token := tjoin [KSym "."] (map (fun p => [KWord p]) (parts x)).

Fixpoint xtoks (e : sexp) : list token :=
  let param (p : sexp * string * string) := xtoks (fst (fst p)) ++ wtoks (snd (fst p)) ++ wtoks (snd p) in
  let named kv := KWord (fst kv) :: KSym ":" :: xtoks (snd kv) in
  match e with
  | XId x => [KWord x]
  | XLit s u => (if smem s ["true"; "false"] then KWord s else KNum s) :: otoks (fun u => [KWord u]) u
  | XStr s => [KText s]
  | XUnicode s => [KUnicode s]
  | XHex s => [KHex s]
  | XBin op a b => xtoks a ++ KSym op :: xtoks b
  | XPre op a => (if op =?s "delete" then KWord op else KSym op) :: xtoks a
  | XPost op a => xtoks a ++ [KSym op]
  | XCond c a b => xtoks c ++ KSym "?" :: xtoks a ++ KSym ":" :: xtoks b
  | XAssign op a b => xtoks a ++ KSym op :: xtoks b
  | XCall f args => xtoks f ++ KSym "(" :: commas (map xtoks args) ++ [KSym ")"]
  | XNamed f args => xtoks f ++ KSym "(" :: KSym "{" :: commas (map named args) ++ [KSym "}"; KSym ")"]
  | XOpts f opts => xtoks f ++ KSym "{" :: commas (map named opts) ++ [KSym "}"]
  | XMember a x => xtoks a ++ [KSym "."; KWord x]
  | XIndex a i => xtoks a ++ KSym "[" :: otoks xtoks i ++ [KSym "]"]
  | XSlice a i j => xtoks a ++ KSym "[" :: otoks xtoks i ++ KSym ":" :: otoks xtoks j ++ [KSym "]"]
  | XTuple l => KSym "(" :: commas (map (otoks xtoks) l) ++ [KSym ")"]
  | XArray l => KSym "[" :: commas (map xtoks l) ++ [KSym "]"]
  | XNew t => KWord "new" :: xtoks t
  | XType t => [KWord t]
  | TName x payable => KWord x :: ftoks payable "payable"
  | TUser x => path_toks x
  | TMap k kn v vn => KWord "mapping" :: KSym "(" :: xtoks k ++ wtoks kn ++ KSym "=>" :: xtoks v ++ wtoks vn ++ [KSym ")"]
  | TArr t len => xtoks t ++ KSym "[" :: otoks xtoks len ++ [KSym "]"]
  | TFun ps external mutability rs =>
      KWord "function" :: KSym "(" :: commas (map param ps) ++ KSym ")" :: ftoks external "external" ++ wtoks mutability ++
      match rs with [] => [] | _ => KWord "returns" :: KSym "(" :: commas (map param rs) ++ [KSym ")"] end
  end.

(** ** How texts begin *)

Definition hd (c : ascii) : bool :=
  letter c || digit c || Ascii.eqb c """" || Ascii.eqb c "(" || Ascii.eqb c "[" || Ascii.eqb c "." || Ascii.eqb c "!" || Ascii.eqb c "~" ||
  Ascii.eqb c "-" || Ascii.eqb c "+".

Ltac andb := repeat match goal with H : _ && _ = true |- _ => apply andb_true_iff in H; destruct H end.
Ltac hdd := eexists _, _; split; reflexivity.

Lemma wordy_headed : forall (p : ascii -> bool) x, (forall c, letter c = true -> p c = true) -> wordy x = true -> headed p x.
Proof.
  intros p [|c x] I H; [discriminate|]. cbn in H. apply andb_true_iff in H. exists c, x. split; [reflexivity|]. apply I, H.
Qed.

Lemma numeral_headed : forall x, numeral x = true -> headed (fun c => digit c || Ascii.eqb c ".") x.
Proof. intros [|c x] H; [discriminate|]. unfold numeral in H. apply andb_true_iff in H. exists c, x. split; [reflexivity|]. apply H. Qed.

Lemma headed_weak : forall (p q : ascii -> bool) s, (forall c, p c = true -> q c = true) -> headed p s -> headed q s.
Proof. intros p q s I (c & r & -> & H). exists c, r. split; [reflexivity|]. now apply I. Qed.

Lemma at_text : forall k n s, Nat.leb k n = true -> paren (Nat.ltb n k) s = s.
Proof. intros k n s H. apply Nat.leb_le in H. replace (Nat.ltb n k) with false; [reflexivity|]. symmetry. now apply Nat.ltb_ge. Qed.

Lemma parts_cons : forall c r, exists p l, parts (String c r) = p :: l.
Proof. intros c r. cbn [parts]. destruct (Ascii.eqb c "."); [eexists _, _; reflexivity|]. destruct (parts r); eexists _, _; reflexivity. Qed.

Lemma parts_nonempty : forall s, parts s <> [].
Proof. intros [|c r]; [discriminate|]. destruct (parts_cons c r) as (p & l & ->). discriminate. Qed.

Lemma parts_join : forall s, s = sjoin "." (parts s).
Proof.
  induction s as [|c r IH]; [reflexivity|]. cbn [parts]. destruct (Ascii.eqb c ".") eqn:E.
  - apply Ascii.eqb_eq in E. subst c. pose proof (parts_nonempty r) as N. unfold sjoin in *. destruct (parts r) as [|p l]; [congruence|].
    change (String.concat "." ("" :: p :: l)) with (String.append "" (String.append "." (String.concat "." (p :: l)))). now rewrite <- IH.
  - pose proof (parts_nonempty r) as N. unfold sjoin in *. destruct (parts r) as [|p l]; [congruence|]. rewrite IH. destruct l; reflexivity.
Qed.

Lemma path_headed : forall x, path_name x = true -> headed letter x.
Proof.
  intros x H. unfold path_name in H. rewrite (parts_join x). pose proof (parts_nonempty x) as N. destruct (parts x) as [|p l]; [congruence|].
  cbn in H. andb. assert (W : headed letter p) by (apply wordy_headed; [auto|apply name_wordy; assumption]).
  unfold sjoin. destruct l; [exact W|]. cbn [String.concat]. now apply headed_app.
Qed.

Definition op_head (op : string) : Prop := headed hd op.

Lemma true_false_wordy : forall s, smem s ["true"; "false"] = true -> wordy s = true.
Proof. apply all_wordy. reflexivity. Qed.

Lemma exp_headed : forall tab e ind, spelled e = true -> headed hd (xtext tab ind e).
Proof.
  assert (L : forall c, letter c = true -> hd c = true) by (intros c H; unfold hd; now rewrite H).
  assert (W : forall x, wordy x = true -> headed hd x) by (intros x; apply wordy_headed; exact L).
  intros tab e. induction e using sexp_ind2; intros ind Sp; cbn [spelled] in Sp; andb; cbn [xtext]; unfold cat; cbn [fold_right];
    try (hdd); try (rewrite at_text by assumption; apply headed_app; now auto).
  - apply orb_true_iff in Sp. destruct Sp as [Sp|Sp]; [apply W, name_wordy, Sp|]. apply String.eqb_eq in Sp. subst. hdd.
  - assert (N : numeral s = true -> headed hd s).
    { intros N. eapply headed_weak; [|apply numeral_headed, N]. chars. }
    apply headed_app. destruct u; andb; [auto|]. apply orb_true_iff in Sp. destruct Sp as [Sp|Sp]; [auto|]. now apply W, true_false_wordy.
  - apply headed_app. apply smem_In in H. cbn in H. repeat (destruct H as [<-|H]; [hdd|]). destruct H.
  - apply W. apply orb_true_iff in Sp. destruct Sp as [Sp|Sp]; [now apply elementary_wordy|]. apply String.eqb_eq in Sp. subst. reflexivity.
  - apply headed_app. apply W. now apply elementary_wordy.
  - eapply headed_weak; [|now apply path_headed]. exact L.
  - apply headed_app. auto.
Qed.

(** ** Lists *)

Lemma join_cons : forall sep a b l, sjoin sep (a :: b :: l) = String.append a (String.append sep (sjoin sep (b :: l))).
Proof. reflexivity. Qed.

Lemma lxs_join : forall p sep sept ss tss, headed p sep -> lxs any sep sept -> Forall2 (lxs p) ss tss -> lxs p (sjoin sep ss) (tjoin sept tss).
Proof.
  intros p sep sept ss tss H L F. induction F as [|s t ss tss A F IH]; [apply lxs_nil|].
  destruct F as [|s2 t2 ss tss A2 F]; [exact A|]. rewrite join_cons.
  change (tjoin sept (t :: t2 :: tss)) with (t ++ (sept ++ tjoin sept (t2 :: tss))).
  eapply (lxs_headed p p); [exact A| |now apply headed_app]. now apply lxs_lit.
Qed.

Lemma F2map : forall {A} (R : string -> list token -> Prop) (f : A -> string) (g : A -> list token) l,
  (forall x, In x l -> R (f x) (g x)) -> Forall2 R (map f l) (map g l).
Proof.
  induction l as [|a l IH]; intros H; constructor; [apply H; now left|]. apply IH. intros x Hx. apply H. now right.
Qed.

Lemma tightn_comma : headed tightn ", ".
Proof. hdd. Qed.
Lemma comma_lexed : lxs any ", " [KSym ","].
Proof. lit. Qed.

Lemma lxs_commas : forall {A} (f : A -> string) (g : A -> list token) l, (forall x, In x l -> lxs tightn (f x) (g x)) ->
  lxs tightn (sjoin ", " (map f l)) (commas (map g l)).
Proof. intros A f g l H. apply lxs_join; [apply tightn_comma|apply comma_lexed|]. now apply F2map. Qed.

Lemma lxs_holes : forall {A} (f : A -> string) (g : A -> list token) l,
  (forall x, In (Some x) l -> lxs tightn (f x) (g x)) ->
  lxs tightn (holes (map (option_map f) l)) (commas (map (otoks g) l)).
Proof.
  intros A f g l. induction l as [|o l IH]; intros H; [apply lxs_nil|].
  assert (H0 : lxs tightn match option_map f o with Some s => s | None => "" end (otoks g o)).
  { destruct o as [x|]; [apply H; now left|apply lxs_nil]. }
  specialize (IH (fun x Hx => H x (or_intror Hx))).
  cbn [map holes]. unfold cat. cbn [fold_right]. rewrite append_nil_s. destruct l as [|o2 l].
  - cbn [map holes String.append]. unfold commas. cbn [map tjoin]. rewrite append_nil_s. exact H0.
  - change (commas (map (otoks g) (o :: o2 :: l))) with (otoks g o ++ ([KSym ","] ++ commas (map (otoks g) (o2 :: l)))).
    cbn [map] in *. destruct o2 as [y|]; cbn [option_map] in *.
    + eapply (lxs_headed tightn); [exact H0| |hdd]. apply lxs_lit; [lit|exact IH].
    + eapply (lxs_headed tightn); [exact H0| |hdd]. apply lxs_lit; [lit|exact IH].
Qed.

(** ** Pieces that may be missing *)

Lemma spaced_lexed : forall s, blank_or wordy s = true -> lxs tight (spaced s) (wtoks s).
Proof.
  intros s H. unfold blank_or in H. unfold spaced, wtoks. destruct (s =?s ""); [apply lxs_nil|]. cbn in H.
  change (String " " s) with (String.append " " s). change [KWord s] with ([] ++ [KWord s]). apply lxs_lit; [lit|]. now apply wordy_lexed.
Qed.
Lemma flagged_lexed : forall b s, wordy s = true -> lxs tight (flagged b s) (ftoks b s).
Proof.
  intros [] s H; [|apply lxs_nil].
  change (flagged true s) with (String.append " " s). change (ftoks true s) with ([] ++ [KWord s]). apply lxs_lit; [lit|]. now apply wordy_lexed.
Qed.
Lemma spaced_soft : forall s, soft tightn (spaced s).
Proof. intros s. unfold spaced. destruct (s =?s ""); reflexivity. Qed.
Lemma flagged_soft : forall b s, soft tightn (flagged b s).
Proof. intros [] s; reflexivity. Qed.
Lemma soft_weak : forall (p q : ascii -> bool) s, (forall c, p c = true -> q c = true) -> soft p s -> soft q s.
Proof. intros p q [|c s] I H; [reflexivity|]. now apply I. Qed.

Lemma blank_wordy : forall p s, (forall x, p x = true -> wordy x = true) -> blank_or p s = true -> blank_or wordy s = true.
Proof. intros p s I H. unfold blank_or in *. destruct (s =?s ""); [reflexivity|]. now apply I. Qed.
Lemma blank_name : forall s, blank_or name s = true -> blank_or wordy s = true.
Proof. intros s. apply blank_wordy. exact name_wordy. Qed.
Lemma blank_smem : forall l s, forallb wordy l = true -> blank_or (fun x => smem x l) s = true -> blank_or wordy s = true.
Proof. intros l s H. apply blank_wordy. now apply all_wordy. Qed.

(** ** Symbols before something *)

Lemma minus_lexed : forall s ts p, headed (fun c => hd c && negb (Ascii.eqb c "-")) s -> lxs p s ts -> lxs p (String.append "-" s) (KSym "-" :: ts).
Proof.
  intros s ts p (c & r & -> & H) L rest R. cbn [String.append]. eapply lx_tok; [|exact (L rest R)]. cbn [String.append].
  unfold next. cbn [Ascii.eqb Bool.eqb orb andb letter digit]. unfold symbol. change (letter "-") with false. change (digit "-") with false. cbn [orb andb].
  assert (E : forall c, hd c && negb (Ascii.eqb c "-") = true -> smem (String "-" (String c "")) symbols2 = false).
  { intros d Hd. apply negb_true_iff. revert d Hd. chars. }
  change (take 4 (String "-" (String c (String.append r rest)))) with (String "-" (String c (take 2 (String.append r rest)))).
  change (take 3 (String "-" (String c (String.append r rest)))) with (String "-" (String c (take 1 (String.append r rest)))).
  change (take 2 (String "-" (String c (String.append r rest)))) with (String "-" (String c "")).
  cbn [smem symbols4 symbols3 String.eqb Ascii.eqb Bool.eqb]. rewrite (E c H). reflexivity.
Qed.

Lemma not_lexed : forall s ts p, headed hd s -> lxs p s ts -> lxs p (String.append "!" s) (KSym "!" :: ts).
Proof.
  intros s ts p (c & r & -> & H) L rest R. cbn [String.append]. eapply lx_tok; [|exact (L rest R)]. cbn [String.append].
  unfold next. cbn [Ascii.eqb Bool.eqb orb andb letter digit]. unfold symbol. change (letter "!") with false. change (digit "!") with false. cbn [orb andb].
  assert (E : forall c, hd c = true -> smem (String "!" (String c "")) symbols2 = false).
  { intros d Hd. apply negb_true_iff. revert d Hd. chars. }
  change (take 4 (String "!" (String c (String.append r rest)))) with (String "!" (String c (take 2 (String.append r rest)))).
  change (take 3 (String "!" (String c (String.append r rest)))) with (String "!" (String c (take 1 (String.append r rest)))).
  change (take 2 (String "!" (String c (String.append r rest)))) with (String "!" (String c "")).
  cbn [smem symbols4 symbols3 String.eqb Ascii.eqb Bool.eqb]. rewrite (E c H). reflexivity.
Qed.

Lemma dot_word_lexed : forall x p, wordy x = true -> (forall c, p c = true -> tight c = true) -> lxs p (String.append "." x) [KSym "."; KWord x].
Proof.
  intros x p W P rest R. destruct x as [|c x]; [discriminate|]. cbn [String.append]. eapply lx_tok.
  - pose proof W as Hc. cbn in Hc. apply andb_true_iff in Hc. destruct Hc as (Hc & _).
    assert (E : forall c, letter c = true -> negb (digit c) && negb (smem (String "." (String c "")) symbols2) = true) by chars.
    specialize (E c Hc). apply andb_true_iff in E. destruct E as (E1 & E2). apply negb_true_iff in E1, E2.
    unfold next. cbn [Ascii.eqb Bool.eqb orb andb]. change (letter ".") with false. change (digit ".") with false. cbn [orb andb]. rewrite E1.
    unfold symbol.
    change (take 4 (String "." (String c (String.append x rest)))) with (String "." (String c (take 2 (String.append x rest)))).
    change (take 3 (String "." (String c (String.append x rest)))) with (String "." (String c (take 1 (String.append x rest)))).
    change (take 2 (String "." (String c (String.append x rest)))) with (String "." (String c "")).
    cbn [smem symbols4 symbols3 String.eqb Ascii.eqb Bool.eqb]. rewrite E2. reflexivity.
  - apply (lxs_weak tight p _ _ P (wordy_lexed _ W) rest R).
Qed.

Lemma path_lexed : forall x, path_name x = true -> lxs tight x (path_toks x).
Proof.
  intros x H. unfold path_name in H. unfold path_toks. rewrite (parts_join x) at 1. induction (parts x) as [|p l IH]; [apply lxs_nil|].
  cbn [forallb] in H. andb. assert (W : lxs tight p [KWord p]) by (apply wordy_lexed, name_wordy; assumption).
  destruct l as [|q l]; [exact W|]. rewrite join_cons.
  change (tjoin [KSym "."] (map (fun p => [KWord p]) (p :: q :: l))) with ([KWord p] ++ ([KSym "."] ++ tjoin [KSym "."] (map (fun p => [KWord p]) (q :: l)))).
  eapply (lxs_headed tight tight); [exact W| |hdd].
  specialize (IH ltac:(assumption)). cbn [forallb] in H0. andb. clear W H.
  intros rest R. cbn [String.append app]. eapply lx_tok; [|exact (IH rest R)].
  assert (Hq : headed letter (String.append (sjoin "." (q :: l)) rest)).
  { apply headed_app. unfold sjoin. destruct l; [|cbn [String.concat]; apply headed_app]; (apply wordy_headed; [auto|now apply name_wordy]). }
  destruct Hq as (c & r & -> & Hc).
  assert (E : forall c, letter c = true -> negb (digit c) && negb (smem (String "." (String c "")) symbols2) = true) by chars.
  specialize (E c Hc). apply andb_true_iff in E. destruct E as (E1 & E2). apply negb_true_iff in E1, E2.
  unfold next. cbn [Ascii.eqb Bool.eqb orb andb]. change (letter ".") with false. change (digit ".") with false. cbn [orb andb]. rewrite E1.
  unfold symbol.
  change (take 4 (String "." (String c r))) with (String "." (String c (take 2 r))).
  change (take 3 (String "." (String c r))) with (String "." (String c (take 1 r))).
  change (take 2 (String "." (String c r))) with (String "." (String c "")).
  cbn [smem symbols4 symbols3 String.eqb Ascii.eqb Bool.eqb]. rewrite E2. reflexivity.
Qed.

(** An operator between blanks. *)
Lemma binary_lexed : forall op, smem op (binary_ops ++ assignments) = true -> lxs any (String.append " " (String.append op " ")) [KSym op].
Proof.
  intros op H. apply smem_In in H. cbn in H. repeat (destruct H as [<-|H]; [lit|]). destruct H.
Qed.

Lemma lxs_op : forall op s ts p, smem op (binary_ops ++ assignments) = true -> lxs p s ts ->
  lxs p (String.append " " (String.append op (String.append " " s))) (KSym op :: ts).
Proof.
  intros op s ts p H L. replace (String.append " " (String.append op (String.append " " s))) with (String.append (String.append " " (String.append op " ")) s).
  - change (KSym op :: ts) with ([KSym op] ++ ts). apply lxs_lit; [now apply binary_lexed|exact L].
  - rewrite !append_assoc. reflexivity.
Qed.

(** ** The text of an expression gives its tokens *)

Definition follow (e : sexp) : ascii -> bool := if Nat.leb 16 (tightness e) && negb (is_bare e) then tight else tightn.

Lemma follow_loose : forall e s ts, lxs (follow e) s ts -> lxs tightn s ts.
Proof. intros e s ts. unfold follow. destruct (_ && _); [apply tight_lxs|auto]. Qed.
Lemma follow_tight : forall e s ts, Nat.leb 16 (tightness e) = true -> negb (is_bare e) = true -> lxs (follow e) s ts -> lxs tight s ts.
Proof. intros e s ts H1 H2. unfold follow. rewrite H1, H2. auto. Qed.
Lemma follow_any : forall e s ts, lxs any s ts -> lxs (follow e) s ts.
Proof. intros. now apply any_lxs. Qed.

Ltac lend := rewrite ?append_nil_s.
(** A piece that ends by itself. *)
Ltac lnext := eapply lxs_lit; [first [lit|eassumption]|].
(** The rest begins with a delimiter. *)
Ltac ltightn := eapply (lxs_headed tightn); [| |hdd].
Ltac done_toks := cbn [app]; rewrite <- ?app_assoc; cbn [app]; reflexivity.

Lemma sticks_head : forall tab ind a, spelled a = true -> Nat.leb 15 (tightness a) = true -> sticks "-" a = false ->
  headed (fun c => hd c && negb (Ascii.eqb c "-")) (xtext tab ind a).
Proof.
  assert (L : forall c, letter c = true -> hd c && negb (Ascii.eqb c "-") = true) by chars.
  assert (K : forall tab ind a, spelled a = true -> Nat.leb 16 (tightness a) = true -> headed (fun c => hd c && negb (Ascii.eqb c "-")) (xtext tab ind a)).
  { intros tab ind a. revert ind. assert (W : forall x, wordy x = true -> headed (fun c => hd c && negb (Ascii.eqb c "-")) x) by (intros x; apply wordy_headed; exact L).
    induction a using sexp_ind2; intros ind Sp T; cbn [spelled] in Sp; andb; cbn [xtext]; unfold cat; cbn [fold_right];
      try hdd; try discriminate T; try (rewrite at_text by assumption; apply headed_app; now auto).
    - apply orb_true_iff in Sp. destruct Sp as [Sp|Sp]; [apply W, name_wordy, Sp|]. apply String.eqb_eq in Sp. subst. hdd.
    - assert (N : numeral s = true -> headed (fun c => hd c && negb (Ascii.eqb c "-")) s).
      { intros N. eapply headed_weak; [|apply numeral_headed, N]. chars. }
      apply headed_app. destruct u; andb; [auto|]. apply orb_true_iff in Sp. destruct Sp as [Sp|Sp]; [auto|]. now apply W, true_false_wordy.
    - exfalso. cbn [tightness] in T. apply smem_In in H. cbn in H. repeat (destruct H as [<-|H]; [discriminate T|]). destruct H.
    - apply W. apply orb_true_iff in Sp. destruct Sp as [Sp|Sp]; [now apply elementary_wordy|]. apply String.eqb_eq in Sp. subst. reflexivity.
    - apply headed_app. apply W. now apply elementary_wordy.
    - eapply headed_weak; [|now apply path_headed]. exact L.
    - apply headed_app. apply IHa; [assumption|]. destruct a; try discriminate; reflexivity. }
  intros tab ind a Sp T St. destruct (Nat.leb 16 (tightness a)) eqn:E; [now apply K|].
  destruct a; try discriminate E.
  - exfalso. cbn [spelled] in Sp. andb. cbn [tightness] in T. apply smem_In in H. cbn in H. repeat (destruct H as [<-|H]; [discriminate T|]). destruct H.
  - cbn [spelled] in Sp. andb. cbn [xtext]. unfold cat. cbn [fold_right]. apply headed_app. apply smem_In in H. cbn in H.
    repeat (destruct H as [<-|H]; [first [hdd|discriminate St]|]). destruct H.
  - cbn [spelled] in Sp. andb. cbn [xtext]. unfold cat. cbn [fold_right]. rewrite at_text by assumption. apply headed_app. now apply K.
  - discriminate T.
  - discriminate T.
Qed.

Lemma exp_type_lexed : forall tab e ind, spelled e = true -> lxs (follow e) (xtext tab ind e) (xtoks e).
Proof.
  intros tab e. induction e using sexp_ind2; intros ind Sp; cbn [spelled] in Sp; andb; cbn [xtext xtoks]; unfold cat; cbn [fold_right];
    rewrite ?at_text by assumption; lend.
  - unfold follow. cbn. apply wordy_lexed. apply orb_true_iff in Sp. destruct Sp as [Sp|Sp]; [now apply name_wordy|]. apply String.eqb_eq in Sp. subst. reflexivity.
  - destruct u as [u|]; cbn [otext otoks].
    + andb. assert (N : smem s ["true"; "false"] = false).
      { destruct (smem s ["true"; "false"]) eqn:E; [|reflexivity]. apply smem_In in E. cbn in E. destruct E as [<-|[<-|[]]]; discriminate H. }
      rewrite N. unfold follow. cbn [tightness Nat.leb is_bare negb andb].
      change (String " " u) with (String.append " " u). change [KNum s; KWord u] with ([KNum s] ++ ([] ++ [KWord u])).
      ltightn; [now apply numeral_lexed|]. lnext. apply wordy_lexed. revert H0. apply all_wordy. reflexivity.
    + lend. unfold follow. cbn [tightness Nat.leb is_bare negb andb]. destruct (smem s ["true"; "false"]) eqn:E.
      * apply tight_lxs, wordy_lexed, true_false_wordy, E.
      * rewrite orb_false_r in Sp. now apply numeral_lexed.
  - apply follow_any. pose proof (text_lexed s) as T. unfold cat in T. cbn [fold_right] in T. rewrite append_nil_s in T. exact T.
  - apply follow_any. pose proof (unicode_lexed s Sp) as T. unfold cat in T. cbn [fold_right] in T. rewrite append_nil_s in T. exact T.
  - apply follow_any. pose proof (hex_lexed s) as T. unfold cat in T. cbn [fold_right] in T. rewrite append_nil_s in T. exact T.
  - replace (follow (XBin op e1 e2)) with tightn.
    + ltightn; [apply (follow_loose e1); auto|]. apply lxs_op.
      * match goal with K : smem op binary_ops = true |- _ => apply smem_In in K; apply smem_In, in_app_iff; now left end.
      * apply (follow_loose e2); auto.
    + unfold follow. cbn [tightness]. match goal with K : smem op binary_ops = true |- _ => apply smem_In in K; cbn in K; rename K into Ho end.
      repeat (destruct Ho as [<-|Ho]; [reflexivity|]). destruct Ho.
  - change (follow (XPre op e)) with tightn. assert (Le : lxs tightn (xtext tab ind e) (xtoks e)) by (apply (follow_loose e); auto).
    assert (Sb : lxs tightn (String.append " " (xtext tab ind e)) (xtoks e)).
    { change (xtoks e) with ([] ++ xtoks e). lnext. exact Le. }
    assert (Hd : headed hd (xtext tab ind e)) by now apply exp_headed.
    match goal with K : smem op _ = true |- _ => apply smem_In in K; cbn in K; rename K into Ho end.
    repeat match type of Ho with _ \/ _ => destruct Ho as [<-|Ho] end; [..|destruct Ho]; cbn [String.eqb Ascii.eqb Bool.eqb orb].
    + change (KWord "delete" :: xtoks e) with ([KWord "delete"] ++ xtoks e). ltightn; [|exact Sb]. apply tight_lxs. now apply wordy_lexed.
    + change (sticks "!" e) with (match e with XPre (String d _) _ => sign "!" && Ascii.eqb "!" d | _ => false end).
      replace (match e with XPre (String d _) _ => sign "!" && Ascii.eqb "!" d | _ => false end) with false by (destruct e; try reflexivity; destruct op; reflexivity).
      cbn [String.append]. change (String "!" (xtext tab ind e)) with (String.append "!" (xtext tab ind e)). now apply not_lexed.
    + change (KSym "~" :: xtoks e) with ([KSym "~"] ++ xtoks e). lnext. destruct (sticks "~" e); [exact Sb|exact Le].
    + destruct (sticks "-" e) eqn:E.
      * cbn [String.append]. intros rest R. cbn [String.append]. eapply lx_tok; [cbn; reflexivity|]. eapply lx_skip; [cbn; reflexivity|reflexivity|]. exact (Le rest R).
      * cbn [String.append]. change (String "-" (xtext tab ind e)) with (String.append "-" (xtext tab ind e)). apply minus_lexed; [|exact Le]. now apply sticks_head.
    + change (KSym "++" :: xtoks e) with ([KSym "++"] ++ xtoks e). lnext. destruct (sticks "++" e); [exact Sb|exact Le].
    + change (KSym "--" :: xtoks e) with ([KSym "--"] ++ xtoks e). lnext. destruct (sticks "--" e); [exact Sb|exact Le].
  - apply follow_any. match goal with K : smem op _ = true |- _ => apply smem_In in K; cbn in K; rename K into Ho end.
    destruct Ho as [<-|[<-|[]]]; (ltightn; [apply (follow_loose e); auto|lit]).
  - change (follow (XCond e1 e2 e3)) with tightn. ltightn; [apply (follow_loose e1); auto|].
    change (KSym "?" :: xtoks e2 ++ KSym ":" :: xtoks e3) with ([KSym "?"] ++ (xtoks e2 ++ ([KSym ":"] ++ xtoks e3))). lnext.
    ltightn; [apply (follow_loose e2); auto|]. lnext. apply (follow_loose e3); auto.
  - change (follow (XAssign op e1 e2)) with tightn. ltightn; [apply (follow_loose e1); auto|]. apply lxs_op.
    + match goal with K : smem op assignments = true |- _ => apply smem_In in K; apply smem_In, in_app_iff; now right end.
    + apply (follow_loose e2); auto.
  - apply follow_any. ltightn; [apply (follow_loose e); auto|].
    match goal with K : forallb _ args = true |- _ => rewrite forallb_forall in K; rename K into Ha end. rewrite Forall_forall in *.
    change (KSym "(" :: commas (map xtoks args) ++ [KSym ")"]) with ([KSym "("] ++ (commas (map xtoks args) ++ [KSym ")"])). lnext.
    ltightn; [|lit]. apply lxs_commas. intros x Hx. specialize (Ha x Hx). andb. apply (follow_loose x); auto.
  - apply follow_any. ltightn; [apply (follow_loose e); auto|].
    match goal with K : forallb _ args = true |- _ => rewrite forallb_forall in K; rename K into Ha end. rewrite Forall_forall in *.
    set (named := fun kv : string * sexp => KWord (fst kv) :: KSym ":" :: xtoks (snd kv)).
    change (KSym "(" :: KSym "{" :: commas (map named args) ++ [KSym "}"; KSym ")"]) with
      ([KSym "("; KSym "{"] ++ (commas (map named args) ++ ([] ++ ([] ++ [KSym "}"; KSym ")"])))). lnext.
    ltightn; [|]. 2: { eapply lxs_lit; [apply newline_lexed|]. eapply lxs_lit; [apply margin_lexed|]. lit. }
    apply lxs_join; [hdd|lit|]. apply F2map. intros x Hx. specialize (Ha x Hx). andb. unfold named.
    change (KWord (fst x) :: KSym ":" :: xtoks (snd x)) with ([] ++ ([] ++ ([KWord (fst x)] ++ ([KSym ":"] ++ xtoks (snd x))))).
    eapply lxs_lit; [apply newline_lexed|]. eapply lxs_lit; [apply margin_lexed|].
    ltightn; [now apply tight_lxs, wordy_lexed, name_wordy|]. lnext. lend. apply (follow_loose (snd x)); auto.
  - apply follow_any. ltightn; [apply (follow_loose e); auto|].
    match goal with K : forallb _ args = true |- _ => rewrite forallb_forall in K; rename K into Ha end. rewrite Forall_forall in *.
    set (named := fun kv : string * sexp => KWord (fst kv) :: KSym ":" :: xtoks (snd kv)).
    change (KSym "{" :: commas (map named args) ++ [KSym "}"]) with ([KSym "{"] ++ (commas (map named args) ++ [KSym "}"])). lnext.
    ltightn; [|lit]. apply lxs_commas. intros x Hx. specialize (Ha x Hx). andb. unfold named.
    change (KWord (fst x) :: KSym ":" :: xtoks (snd x)) with ([KWord (fst x)] ++ ([KSym ":"] ++ xtoks (snd x))).
    ltightn; [now apply tight_lxs, wordy_lexed, name_wordy|]. lnext. lend. apply (follow_loose (snd x)); auto.
  - eapply (lxs_headed tight); [apply (follow_tight e); auto| |hdd]. apply dot_word_lexed.
    + match goal with K : name x || _ = true |- _ => apply orb_true_iff in K; destruct K as [K|K]; [now apply name_wordy|apply String.eqb_eq in K; subst; reflexivity] end.
    + intros c. unfold follow. cbn. auto.
  - apply follow_any. ltightn; [apply (follow_loose e); auto|].
    change (KSym "[" :: otoks xtoks i ++ [KSym "]"]) with ([KSym "["] ++ (otoks xtoks i ++ [KSym "]"])). lnext.
    ltightn; [|lit]. destruct i as [i|]; [|apply lxs_nil]. cbn [otext otoks]. andb. apply (follow_loose i). match goal with K : SolText.OForall _ _ |- _ => apply K; assumption end.
  - apply follow_any. ltightn; [apply (follow_loose e); auto|].
    change (KSym "[" :: otoks xtoks i ++ KSym ":" :: otoks xtoks j ++ [KSym "]"]) with ([KSym "["] ++ (otoks xtoks i ++ ([KSym ":"] ++ (otoks xtoks j ++ [KSym "]"])))). lnext.
    ltightn.
    + destruct i as [i|]; [|apply lxs_nil]. cbn [otext otoks]. andb. apply (follow_loose i). apply H; assumption.
    + lnext. ltightn; [|lit]. destruct j as [j|]; [|apply lxs_nil]. cbn [otext otoks]. andb. apply (follow_loose j). apply H0; assumption.
  - apply follow_any. change (KSym "(" :: commas (map (otoks xtoks) l) ++ [KSym ")"]) with ([KSym "("] ++ (commas (map (otoks xtoks) l) ++ [KSym ")"])). lnext.
    ltightn; [|lit]. match goal with K : forallb _ l = true |- _ => rewrite forallb_forall in K; rename K into Ha end. rewrite Forall_forall in *.
    apply lxs_holes. intros x Hx. specialize (Ha _ Hx). cbn in Ha. andb. apply (follow_loose x). apply (H _ Hx). assumption.
  - apply follow_any. change (KSym "[" :: commas (map xtoks l) ++ [KSym "]"]) with ([KSym "["] ++ (commas (map xtoks l) ++ [KSym "]"])). lnext.
    ltightn; [|lit]. match goal with K : forallb _ l = true |- _ => rewrite forallb_forall in K; rename K into Ha end. rewrite Forall_forall in *.
    apply lxs_commas. intros x Hx. specialize (Ha _ Hx). cbn in Ha. andb. apply (follow_loose x). apply (H _ Hx). assumption.
  - change (KWord "new" :: xtoks e) with ([KWord "new"] ++ xtoks e). lnext. apply (follow_tight e); auto; destruct e; try discriminate; reflexivity.
  - unfold follow. cbn. apply wordy_lexed. apply orb_true_iff in Sp. destruct Sp as [Sp|Sp]; [now apply elementary_wordy|]. apply String.eqb_eq in Sp. subst. reflexivity.
  - unfold follow. cbn [tightness Nat.leb is_bare negb andb]. change (KWord x :: ftoks p "payable") with ([KWord x] ++ ftoks p "payable").
    apply lxs_soft; [now apply wordy_lexed, elementary_wordy|now apply flagged_lexed|]. eapply soft_weak; [exact tightn_tight|apply flagged_soft].
  - unfold follow. cbn. now apply path_lexed.
  - apply follow_any.
    change (KWord "mapping" :: KSym "(" :: xtoks e1 ++ wtoks kn ++ KSym "=>" :: xtoks e2 ++ wtoks vn ++ [KSym ")"]) with
      ([KWord "mapping"; KSym "("] ++ (xtoks e1 ++ (wtoks kn ++ ([KSym "=>"] ++ (xtoks e2 ++ (wtoks vn ++ [KSym ")"])))))). lnext.
    eapply (lxs_headed tightn); [apply (follow_loose e1); auto| |apply headed_soft; [apply spaced_soft|hdd]].
    ltightn; [now apply tight_lxs, spaced_lexed, blank_name|]. lnext.
    eapply (lxs_headed tightn); [apply (follow_loose e2); auto| |apply headed_soft; [apply spaced_soft|hdd]].
    ltightn; [now apply tight_lxs, spaced_lexed, blank_name|]. lit.
  - apply follow_any. ltightn; [apply (follow_loose e); auto|].
    change (KSym "[" :: otoks xtoks len ++ [KSym "]"]) with ([KSym "["] ++ (otoks xtoks len ++ [KSym "]"])). lnext.
    ltightn; [|lit]. destruct len as [i|]; [|apply lxs_nil]. cbn [otext otoks]. andb. apply (follow_loose i). match goal with K : SolText.OForall _ _ |- _ => apply K; assumption end.
  - unfold follow. cbn [tightness Nat.leb is_bare negb andb].
    set (param := fun p : sexp * string * string => xtoks (fst (fst p)) ++ wtoks (snd (fst p)) ++ wtoks (snd p)).
    assert (P : forall l, Forall (fun p => forall ind, spelled (fst (fst p)) = true -> lxs (follow (fst (fst p))) (xtext tab ind (fst (fst p))) (xtoks (fst (fst p)))) l ->
      forallb (fun p => is_type (fst (fst p)) && spelled (fst (fst p)) && blank_or (fun l0 => smem l0 location_words) (snd (fst p)) && blank_or name (snd p)) l = true ->
      lxs tightn (sjoin ", " (map (fun p => cat [xtext tab ind (fst (fst p)); spaced (snd (fst p)); spaced (snd p)]) l)) (commas (map param l))).
    { intros l F B. rewrite forallb_forall in B. rewrite Forall_forall in F. apply lxs_commas. intros p Hp. specialize (B p Hp). andb.
      unfold cat, param. cbn [fold_right]. lend. apply lxs_soft; [apply (follow_loose (fst (fst p))); auto| |apply soft_app; apply spaced_soft].
      apply lxs_soft; [| |apply spaced_soft].
      - apply tight_lxs, spaced_lexed. eapply (blank_smem location_words); [reflexivity|assumption].
      - now apply tight_lxs, spaced_lexed, blank_name. }
    change (KWord "function" :: KSym "(" :: commas (map param ps) ++ KSym ")" :: ftoks e "external" ++ wtoks m ++
      match rs with [] => [] | _ :: _ => KWord "returns" :: KSym "(" :: commas (map param rs) ++ [KSym ")"] end) with
      ([KWord "function"; KSym "("] ++ (commas (map param ps) ++ ([KSym ")"] ++ (ftoks e "external" ++ (wtoks m ++
      match rs with [] => [] | _ :: _ => KWord "returns" :: KSym "(" :: commas (map param rs) ++ [KSym ")"] end))))). lnext.
    ltightn; [apply P; assumption|]. lnext.
    assert (Sr : soft tight match rs with [] => "" | _ :: _ => String.append " returns (" (String.append (sjoin ", " (map (fun p =>
                  String.append (xtext tab ind (fst (fst p))) (String.append (spaced (snd (fst p))) (spaced (snd p)))) rs)) ")") end).
    { destruct rs; reflexivity. }
    apply lxs_soft; [now apply flagged_lexed| |].
    + apply lxs_soft.
      * apply spaced_lexed. eapply (blank_smem mutability_words); [reflexivity|assumption].
      * destruct rs as [|r rs]; [apply lxs_nil|].
        change (KWord "returns" :: KSym "(" :: commas (map param (r :: rs)) ++ [KSym ")"]) with ([KWord "returns"; KSym "("] ++ (commas (map param (r :: rs)) ++ [KSym ")"])). lend. lnext.
        ltightn; [|lend; lit]. apply P; assumption.
      * destruct rs; reflexivity.
    + apply soft_app; [eapply soft_weak; [exact tightn_tight|apply spaced_soft]|destruct rs; reflexivity].
Qed.

Lemma exp_lexed : forall tab ind e, spelled e = true -> lxs tightn (xtext tab ind e) (xtoks e).
Proof. intros tab ind e Sp. apply (follow_loose e). now apply exp_type_lexed. Qed.
