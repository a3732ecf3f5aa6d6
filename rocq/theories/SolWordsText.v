(** The program determines the words of its tree; braces do not change them. *)
From Coq Require Import String Ascii List NArith ZArith Bool Lia.
From Verif Require Import Base Json JsonFacts SpecTree SpecMutation SpecLiteral SpecVyText SpecSolText SpecSolEdit
  TraverseFacts LocalFacts SolText SolTextStmt SolTextClaims SolPlace SolStrip SolWords.
Import ListNotations.
Open Scope string_scope.
Open Scope list_scope.

Definition each_of {A} (f : A -> list string) (l : list A) : list string := flat_map f l.
Definition opt_of {A} (f : A -> list string) (o : option A) : list string := match o with Some a => f a | None => [] end.

Fixpoint xwords (e : sexp) : list string :=
  match e with
  | XBin op a b => op :: xwords a ++ xwords b
  | XPre op a | XPost op a => op :: xwords a
  | XCond c a b => xwords c ++ xwords a ++ xwords b
  | XAssign _ a b => xwords a ++ xwords b
  | XCall f args => xwords f ++ each_of xwords args
  | XNamed f args | XOpts f args => xwords f ++ each_of (fun kv => xwords (snd kv)) args
  | XMember a x => x :: xwords a
  | XIndex a i => xwords a ++ opt_of xwords i
  | XSlice a i j => xwords a ++ opt_of xwords i ++ opt_of xwords j
  | XTuple l => each_of (opt_of xwords) l
  | XArray l => each_of xwords l
  | XNew t => xwords t
  | TMap k _ v _ => xwords k ++ xwords v
  | TArr t len => xwords t ++ opt_of xwords len
  | _ => []
  end.
Definition vwords (v : svar) : list string := xwords (sv_type v) ++ opt_of xwords (sv_value v).
Fixpoint cwords (s : sstmt) : list string :=
  match s with
  | CExp e | CEmit e | CRevert e => xwords e
  | CVar l e => each_of (opt_of vwords) l ++ opt_of xwords e
  | CBlock _ l => each_of cwords l
  | CIf e a b => xwords e ++ cwords a ++ opt_of cwords b
  | CWhile e s | CDo s e => xwords e ++ cwords s
  | CFor i e l s => opt_of cwords i ++ opt_of xwords e ++ opt_of xwords l ++ cwords s
  | CReturn e => opt_of xwords e
  | CWord _ | CTry _ _ _ _ => []
  end.
Definition awords (m : sexp * option (list sexp)) : list string := opt_of (each_of xwords) (snd m).
Definition mwords (m : smember) : list string :=
  match m with
  | MVar v => vwords v
  | MFun f => each_of vwords (sf_params f) ++ each_of awords (sf_modifiers f) ++ each_of vwords (sf_returns f) ++ opt_of cwords (sf_body f)
  | MModifier _ ps _ _ b => each_of vwords ps ++ opt_of cwords b
  | MEvent _ ps _ | MError _ ps | MStruct _ ps => each_of vwords ps
  | MUsing _ t _ | MUsingFuns _ t _ => opt_of xwords t
  | MEnum _ _ | MType _ _ => []
  end.
Definition pwords (p : stop) : list string :=
  match p with
  | PContract _ _ _ bases l => each_of awords bases ++ each_of mwords l
  | PMember m => mwords m
  | _ => []
  end.
Definition uwords (l : list stop) : list string := each_of pwords l.
Definition words (t : thing) : list string :=
  match t with TE e => xwords e | TV v => vwords v | TS s => cwords s | TM m => mwords m | TP p => pwords p | TU l => uwords l end.

(** ** Of trees *)

Lemma arr_words : forall A (f : A -> list string) (R : A -> json -> Prop) l ns, Forall2 R l ns -> Forall (fun a => forall n, R a n -> jwords n = f a) l ->
  jwords (JArr ns) = each_of f l.
Proof.
  intros A f R l ns F. cbn [jwords]. unfold each_of. induction F as [|a n l ns H F IH]; intros G; [reflexivity|]. inversion G as [|? ? Ga Gl]; subst.
  cbn [map concat flat_map]. now rewrite (Ga n H), (IH Gl).
Qed.
Lemma arr_words_all : forall A (f : A -> list string) (R : A -> json -> Prop) l ns, Forall2 R l ns -> (forall a n, R a n -> jwords n = f a) -> jwords (JArr ns) = each_of f l.
Proof. intros A f R l ns F H. apply (arr_words A f R l ns F). apply Forall_forall. auto. Qed.

Lemma seg_maybe : forall (o : option sexp) n k, OForall (fun e => forall v, xnode e v -> jwords v = xwords e) o ->
  match o with Some e => exists v, fld n k v /\ xnode e v | None => gone n k end -> seg n k = opt_of xwords o.
Proof. intros [e|] n k H M; [destruct M as (v & F & X); rewrite (seg_fld _ _ _ F); exact (H v X)|now rewrite (seg_gone _ _ M)]. Qed.
Lemma seg_xmaybe : forall A (f : A -> list string) (R : A -> json -> Prop) (o : option A) n k, (forall a v, R a v -> jwords v = f a) -> xmaybe R o n k -> seg n k = opt_of f o.
Proof. intros A f R [e|] n k H M; [destruct M as (v & F & X); rewrite (seg_fld _ _ _ F); exact (H e v X)|now rewrite (seg_gone _ _ M)]. Qed.

Lemma plain_n : forall v ty, is_n v ty -> (word_key ty =?s "") = true -> jwords v = concat (map (seg v) (part_keys ty)).
Proof. intros v ty A H. rewrite (jwords_n _ _ A). unfold label. now rewrite H. Qed.
Lemma word_n : forall v ty s, is_n v ty -> (word_key ty =?s "") = false -> fld v (word_key ty) (JStr s) -> jwords v = s :: concat (map (seg v) (part_keys ty)).
Proof. intros v ty s A H F. rewrite (jwords_n _ _ A). unfold label. rewrite H. unfold fld in F. now rewrite F. Qed.

Ltac keys := match goal with |- context [part_keys ?t] => let k := eval vm_compute in (part_keys t) in change (part_keys t) with k end; cbn [map concat app]; rewrite ?app_nil_r.
Ltac plain A := rewrite (plain_n _ _ A eq_refl); keys.
Ltac child H := let v := fresh "v" in let F := fresh "F" in let X := fresh "X" in destruct H as (v & F & X); rewrite (seg_fld _ _ _ F).

Lemma xelements_to : forall es ns, xelements xnode es ns -> Forall2 xnode es ns.
Proof. induction es as [|e es IH]; intros [|n ns] H; cbn [xelements] in H; try (exact (False_ind _ H)); constructor; [apply H|apply IH, H]. Qed.

Lemma xnode_words : forall e v, xnode e v -> jwords v = xwords e.
Proof.
  induction e using sexp_ind2; intros n N; cbn [xnode] in N; cbn [xwords].
  - destruct N as ([A|A] & _); plain A; reflexivity.
  - destruct N as (A & _). plain A. reflexivity.
  - destruct N as (A & _). plain A. reflexivity.
  - destruct N as (A & _). plain A. reflexivity.
  - destruct N as (A & _). plain A. reflexivity.
  - destruct N as (A & _ & O & Ha & Hb). rewrite (word_n _ _ op A eq_refl O). keys. child Ha. child Hb. now rewrite (IHe1 _ X), (IHe2 _ X0).
  - destruct N as (A & _ & O & Ha). rewrite (word_n _ _ op A eq_refl O). keys. child Ha. now rewrite (IHe _ X).
  - destruct N as (A & _ & O & Ha). rewrite (word_n _ _ op A eq_refl O). keys. child Ha. now rewrite (IHe _ X).
  - destruct N as (A & Hc & Ha & Hb). plain A. child Hc. child Ha. child Hb. now rewrite (IHe1 _ X), (IHe2 _ X0), (IHe3 _ X1).
  - destruct N as (A & _ & Ha & Hb). plain A. child Ha. child Hb. now rewrite (IHe1 _ X), (IHe2 _ X0).
  - destruct N as (A & Hf & (l & Fl & Xl) & _). plain A. child Hf. rewrite (seg_fld _ _ _ Fl), (IHe _ X).
    now rewrite (arr_words _ xwords xnode args l (xelements_to _ _ Xl) H).
  - destruct N as (A & Hf & _ & _ & ks & vs & _ & Fl & Xl). plain A. child Hf. rewrite (seg_fld _ _ _ Fl), (IHe _ X).
    apply named_nodes in Xl. destruct Xl as (_ & Xl). now rewrite (arr_words _ (fun kv => xwords (snd kv)) (fun kv => xnode (snd kv)) args vs Xl H).
  - destruct N as (A & Hf & ks & vs & _ & Fl & Xl). plain A. child Hf. rewrite (seg_fld _ _ _ Fl), (IHe _ X).
    apply named_nodes in Xl. destruct Xl as (_ & Xl). now rewrite (arr_words _ (fun kv => xwords (snd kv)) (fun kv => xnode (snd kv)) args vs Xl H).
  - destruct N as (A & Ha & O). rewrite (word_n _ _ x A eq_refl O). keys. child Ha. now rewrite (IHe _ X).
  - destruct N as (A & Ha & Hi). plain A. child Ha. now rewrite (IHe _ X), (seg_maybe _ _ _ H Hi).
  - destruct N as (A & Ha & Hi & Hj). plain A. child Ha. now rewrite (IHe _ X), (seg_maybe _ _ _ H Hi), (seg_maybe _ _ _ H0 Hj).
  - destruct N as (A & _ & ns & Fl & Xl). plain A. rewrite (seg_fld _ _ _ Fl). apply tuple_nodes in Xl.
    refine (arr_words _ (opt_of xwords) (hole_node xnode) l ns Xl _). apply Forall_forall. intros o I w Hw. rewrite Forall_forall in H. specialize (H o I).
    destruct o as [e|]; [exact (H w Hw)|]. cbn [hole_node] in Hw. subst w. reflexivity.
  - destruct N as (A & _ & ns & Fl & Xl). plain A. rewrite (seg_fld _ _ _ Fl). exact (arr_words _ xwords xnode l ns (xelements_to _ _ Xl) H).
  - destruct N as (A & Ha). plain A. child Ha. exact (IHe _ X).
  - destruct N as (A & _). plain A. reflexivity.
  - destruct N as (A & _). plain A. reflexivity.
  - destruct N as (A & _). plain A. reflexivity.
  - destruct N as (A & Ha & Hb & _). plain A. child Ha. child Hb. now rewrite (IHe1 _ X), (IHe2 _ X0).
  - destruct N as (A & Ha & Hi). plain A. child Ha. now rewrite (IHe _ X), (seg_maybe _ _ _ H Hi).
  - destruct N as (A & _). plain A. reflexivity.
Qed.

Lemma var_words : forall d v, var_node d v -> jwords v = vwords d.
Proof.
  intros d v N. destruct N as (A & _ & Ht & _ & _ & _ & _ & _ & _ & _ & Hv). plain A. child Ht.
  now rewrite (xnode_words _ _ X), (seg_xmaybe _ xwords xnode _ _ _ xnode_words Hv).
Qed.
Lemma hole_words : forall d v, hole_node var_node d v -> jwords v = opt_of vwords d.
Proof. intros [d|] v H; [exact (var_words d v H)|]. cbn [hole_node] in H. now subst v. Qed.
Lemma params_words : forall l v, params_node l v -> jwords v = each_of vwords l.
Proof.
  intros l v (A & ns & F & X). plain A. rewrite (seg_fld _ _ _ F). exact (arr_words_all _ vwords var_node l ns X var_words).
Qed.

Lemma cnode_words : forall s v, cnode s v -> jwords v = cwords s.
Proof.
  induction s using sstmt_ind'; intros n N; cbn [cnode] in N; cbn [cwords].
  - destruct N as (A & He). plain A. child He. exact (xnode_words _ _ X).
  - destruct N as (A & (ns & F & X) & Hv). plain A. rewrite (seg_fld _ _ _ F), (arr_words_all _ (opt_of vwords) (hole_node var_node) l ns X hole_words).
    now rewrite (seg_xmaybe _ xwords xnode _ _ _ xnode_words Hv).
  - destruct N as (A & ns & F & X). apply block_nodes in X. transitivity (seg n "statements").
    + destruct u; plain A; reflexivity.
    + rewrite (seg_fld _ _ _ F). exact (arr_words _ cwords cnode l ns X H).
  - destruct N as (A & He & Ha & Hb). plain A. child He. child Ha. rewrite (xnode_words _ _ X), (IHs _ X0). f_equal. f_equal.
    destruct b as [b|]; [child Hb; exact (H _ X1)|exact (seg_gone _ _ Hb)].
  - destruct N as (A & He & Ha). plain A. child He. child Ha. now rewrite (xnode_words _ _ X), (IHs _ X0).
  - destruct N as (A & He & Ha). plain A. child He. child Ha. now rewrite (xnode_words _ _ X), (IHs _ X0).
  - destruct N as (A & Hi & He & Hl & Hs). plain A. child Hs. rewrite (IHs _ X), (seg_xmaybe _ xwords xnode _ _ _ xnode_words He).
    f_equal; [destruct i as [i|]; [child Hi; exact (H _ X0)|exact (seg_gone _ _ Hi)]|]. f_equal. f_equal.
    destruct l as [l|]; [|exact (seg_gone _ _ Hl)]. destruct Hl as (w & x & F1 & Aw & F2 & Xx). rewrite (seg_fld _ _ _ F1). plain Aw.
    rewrite (seg_fld _ _ _ F2). exact (xnode_words _ _ Xx).
  - destruct N as (A & He). plain A. exact (seg_xmaybe _ xwords xnode _ _ _ xnode_words He).
  - destruct N as (A & He). plain A. child He. exact (xnode_words _ _ X).
  - destruct N as (A & He). plain A. child He. exact (xnode_words _ _ X).
  - destruct N as (ty & I & A). cbn in I. repeat (destruct I as [I|I]; [injection I as <- <-; plain A; reflexivity|]). destruct I.
  - destruct N as (A & _). plain A. reflexivity.
Qed.

Lemma arguments_words : forall ty name m v, (word_key ty =?s "") = true -> part_keys ty = ["arguments"] -> arguments_node ty name m v -> jwords v = awords m.
Proof.
  intros ty name [f o] v W K (A & _ & H). rewrite (plain_n _ _ A W), K. cbn [map concat]. rewrite app_nil_r. unfold awords. cbn [snd] in *.
  destruct o as [l|]; [|exact (seg_gone _ _ H)]. destruct H as (ns & F & X). rewrite (seg_fld _ _ _ F).
  exact (arr_words_all _ xwords xnode l ns X xnode_words).
Qed.

Lemma mnode_words : forall m v, mnode m v -> jwords v = mwords m.
Proof.
  intros m n N. destruct m; cbn [mnode] in N; cbn [mwords].
  - exact (var_words _ _ N).
  - destruct N as (A & _ & _ & _ & (w & Fp & Xp) & _ & _ & _ & _ & (ns & Fm & Xm) & (w' & Fr & Xr) & _ & Hb). plain A.
    rewrite (seg_fld _ _ _ Fp), (seg_fld _ _ _ Fm), (seg_fld _ _ _ Fr), (params_words _ _ Xp), (params_words _ _ Xr), (seg_xmaybe _ cwords cnode _ _ _ cnode_words Hb).
    now rewrite (arr_words_all _ awords _ _ _ Xm (fun m v => arguments_words "ModifierInvocation" "modifierName" m v eq_refl eq_refl)).
  - destruct N as (A & _ & _ & (w & Fp & Xp) & _ & _ & Hb). plain A. rewrite (seg_fld _ _ _ Fp), (params_words _ _ Xp). now rewrite (seg_xmaybe _ cwords cnode _ _ _ cnode_words Hb).
  - destruct N as (A & _ & (w & Fp & Xp) & _). plain A. rewrite (seg_fld _ _ _ Fp). exact (params_words _ _ Xp).
  - destruct N as (A & _ & (w & Fp & Xp)). plain A. rewrite (seg_fld _ _ _ Fp). exact (params_words _ _ Xp).
  - destruct N as (A & _ & ns & F & X). plain A. rewrite (seg_fld _ _ _ F). exact (arr_words_all _ vwords var_node l ns X var_words).
  - destruct N as (A & _). plain A. reflexivity.
  - destruct N as (A & _). plain A. reflexivity.
  - destruct N as ((A & Ht & _) & _). plain A. exact (seg_xmaybe _ xwords xnode _ _ _ xnode_words Ht).
  - destruct N as ((A & Ht & _) & _). plain A. exact (seg_xmaybe _ xwords xnode _ _ _ xnode_words Ht).
Qed.

Lemma pnode_words : forall p v, pnode p v -> jwords v = pwords p.
Proof.
  intros p n N. destruct p; cbn [pnode] in N; cbn [pwords].
  - destruct N as (A & _). plain A. reflexivity.
  - destruct N as (A & _). plain A. reflexivity.
  - destruct N as (A & _). plain A. reflexivity.
  - destruct N as (A & _ & _ & _ & _ & (ns & Fb & Xb) & (ns' & Fl & Xl)). plain A. rewrite (seg_fld _ _ _ Fb), (seg_fld _ _ _ Fl).
    rewrite (arr_words_all _ awords _ _ _ Xb (fun m v => arguments_words "InheritanceSpecifier" "baseName" m v eq_refl eq_refl)).
    now rewrite (arr_words_all _ mwords mnode l ns' Xl mnode_words).
  - exact (mnode_words _ _ N).
Qed.

Lemma unit_words : forall license l v, unit_node license l v -> jwords v = uwords l.
Proof.
  intros license l v (A & _ & ns & F & X). plain A. rewrite (seg_fld _ _ _ F). exact (arr_words_all _ pwords pnode l ns X pnode_words).
Qed.

(** ** Of edits *)

Lemma each_mid : forall A (f : A -> list string) u x x' v, f x' = f x -> each_of f (u ++ x' :: v) = each_of f (u ++ x :: v).
Proof. intros A f u x x' v E. unfold each_of. rewrite !flat_map_app. cbn [flat_map]. now rewrite E. Qed.

Lemma step_words : forall c c' t t', step c c' t t' -> words c' = words c -> words t' = words t.
Proof.
  intros c c' t t' H E. destruct H; cbn [words] in *; cbn [xwords cwords mwords pwords opt_of vwords] in *; try (now rewrite E);
    try (apply each_mid; exact E); try (f_equal; apply each_mid; exact E); try (f_equal; [apply each_mid; exact E]).
  - unfold vwords, with_type. cbn [sv_type sv_value]. now rewrite E.
  - unfold vwords, with_value. cbn [sv_type sv_value]. rewrite H. cbn [opt_of]. now rewrite E.
  - cbn [with_params sf_params sf_modifiers sf_returns sf_body]. rewrite H. now rewrite (each_mid _ vwords u x x' v E).
  - cbn [with_modifiers sf_params sf_modifiers sf_returns sf_body]. rewrite H. f_equal. f_equal. apply each_mid. exact (each_mid _ xwords a e e' b E).
  - cbn [with_returns sf_params sf_modifiers sf_returns sf_body]. rewrite H. now rewrite (each_mid _ vwords u x x' v E).
  - cbn [with_body sf_params sf_modifiers sf_returns sf_body]. rewrite H. cbn [opt_of]. now rewrite E.
  - f_equal. apply each_mid. exact (each_mid _ xwords a e e' b E).
Qed.

Lemma brace_words : forall t t', brace t t' -> words t' = words t.
Proof.
  intros t t' H. destruct H; match goal with B : in_braces _ _ |- _ => destruct B as (_ & ->) end; cbn [words cwords mwords opt_of];
    cbn [with_body sf_params sf_modifiers sf_returns sf_body]; try (match goal with B : sf_body _ = _ |- _ => rewrite B end); cbn [opt_of cwords each_of flat_map]; now rewrite ?app_nil_r.
Qed.

Lemma braces_words : forall l l', same_but_braces l l' -> uwords l' = uwords l.
Proof.
  intros l l' [->|H]; [reflexivity|]. change (words (TU l') = words (TU l)). induction H as [t t' B|c c' t t' S H IH]; [exact (brace_words _ _ B)|exact (step_words _ _ _ _ S IH)].
Qed.
