(** The program determines the operators of its tree. *)
From Coq Require Import String Ascii List NArith ZArith Bool Lia.
From Verif Require Import Base Json JsonFacts SpecTree SpecMutation SpecLiteral SpecVyText SpecVyEdit
  TraverseFacts LocalFacts VyText VyTextStmt VyTextClaims VyPlace VyWords.
Import ListNotations.
Open Scope string_scope.
Open Scope list_scope.

Definition each_of {A} (f : A -> list string) (l : list A) : list string := flat_map f l.
Definition opt_of {A} (f : A -> list string) (o : option A) : list string := match o with Some a => f a | None => [] end.
Definition name_in (symbols : list (string * string)) (op : string) : list string :=
  match find (fun p => snd p =?s op) symbols with Some p => [fst p] | None => [] end.

Fixpoint ewords (e : vexp) : list string :=
  match e with
  | VBin op a b => name_in binary_symbols op ++ ewords a ++ ewords b
  | VCmp op a b => name_in compare_symbols op ++ ewords a ++ ewords b
  | VLogic both a b more => (if both then "And" else "Or") :: ewords a ++ ewords b ++ each_of ewords more
  | VNot a => "Not" :: ewords a
  | VInvert a => "Invert" :: ewords a
  | VNeg a => "USub" :: ewords a
  | VAttr a _ => ewords a
  | VSub a i more => ewords a ++ ewords i ++ each_of ewords more
  | VCall f args kws => ewords f ++ each_of ewords args ++ each_of (fun kv => ewords (snd kv)) kws
  | VList l | VTuple l => each_of ewords l
  | VDict l => each_of (fun kv => ewords (fst kv)) l ++ each_of (fun kv => ewords (snd kv)) l
  | _ => []
  end.
Definition twords (t : vtop) : list string := match t with One e => ewords e | Many l => each_of ewords l end.
Fixpoint swords (s : vstmt) : list string :=
  match s with
  | VsExpr e | VsRaise e | VsLog e => ewords e
  | VsAssign t e => twords t ++ twords e
  | VsAug t op e => name_in binary_symbols op ++ ewords t ++ ewords e
  | VsAnn t ty e => ewords t ++ ewords ty ++ opt_of ewords e
  | VsReturn e => opt_of twords e
  | VsAssert e msg => ewords e ++ opt_of ewords msg
  | VsWord _ => []
  | VsIf e body orelse => ewords e ++ each_of swords body ++ each_of swords orelse
  | VsFor t it body => ewords t ++ ewords it ++ each_of swords body
  end.
Definition dwords (d : vdef) : list string :=
  match d with
  | VdFun decs _ args ret body =>
      each_of ewords decs ++ (each_of (fun a => opt_of ewords (va_type a)) args ++ each_of ewords (defaults args)) ++ opt_of twords ret ++ each_of swords body
  | VdVar x _ _ _ ty e => ewords x ++ twords ty ++ opt_of ewords e
  | VdFields _ _ body | VdBlock _ _ body => each_of swords body
  | _ => []
  end.
Definition pwords (l : list vdef) : list string := each_of dwords l.

(** ** Of trees *)

Lemma arr_words : forall A (f : A -> list string) (R : A -> json -> Prop) l ns, Forall2 R l ns -> Forall (fun a => forall n, R a n -> jwords n = f a) l ->
  jwords (JArr ns) = each_of f l.
Proof.
  intros A f R l ns F. cbn [jwords]. unfold each_of. induction F as [|a n l ns H F IH]; intros G; [reflexivity|]. inversion G as [|? ? Ga Gl]; subst.
  cbn [map concat flat_map]. now rewrite (Ga n H), (IH Gl).
Qed.
Lemma arr_words_all : forall A (f : A -> list string) (R : A -> json -> Prop) l ns, Forall2 R l ns -> (forall a n, R a n -> jwords n = f a) -> jwords (JArr ns) = each_of f l.
Proof. intros A f R l ns F H. apply (arr_words A f R l ns F). apply Forall_forall. auto. Qed.
Lemma block_words : forall A (f : A -> list string) (R : A -> json -> Prop) l ns, with_comments R l ns -> Forall (fun a => forall n, R a n -> jwords n = f a) l ->
  jwords (JArr ns) = each_of f l.
Proof.
  intros A f R l ns. assert (Cs : forall cs, Forall a_comment cs -> concat (map jwords cs) = []).
  { intros cs C. induction C as [|c cs H C IH]; [reflexivity|]. cbn [map concat]. now rewrite (comment_words _ H). }
  cbn [jwords]. unfold each_of. revert ns. induction l as [|a l IH]; intros ns W G; cbn [with_comments] in W; [exact (Cs _ W)|].
  destruct W as (cs & n & more & -> & C & H & W). inversion G as [|? ? Ga Gl]; subst. rewrite map_app, concat_app, (Cs _ C). cbn [app map concat flat_map].
  now rewrite (Ga n H), (IH _ W Gl).
Qed.

Lemma seg_onode : forall A (f : A -> list string) (R : A -> json -> Prop) (o : option A) n k, (forall a v, R a v -> jwords v = f a) -> onode R o n k -> seg n k = opt_of f o.
Proof. intros A f R [e|] n k H M; [destruct M as (v & F & X); rewrite (seg_fld _ _ _ F); exact (H e v X)|now rewrite (seg_missing _ _ M)]. Qed.

Lemma plain_n : forall v ty, is_a v ty -> smem ty op_names = false -> jwords v = concat (map (seg v) (part_keys ty)).
Proof. intros v ty A H. rewrite (jwords_n _ _ A). unfold label. now rewrite H. Qed.

Ltac keys := match goal with |- context [part_keys ?t] => let k := eval vm_compute in (part_keys t) in change (part_keys t) with k end; cbn [map concat app]; rewrite ?app_nil_r.
Ltac plain A := rewrite (plain_n _ _ A eq_refl); keys.
Ltac child H := let v := fresh "v" in let F := fresh "F" in let X := fresh "X" in destruct H as (v & F & X); rewrite (seg_fld _ _ _ F).

Lemma name_words : forall n ty, In ty op_names -> has_op n ty -> seg n "op" = [ty].
Proof.
  intros n ty I (o & F & A). rewrite (seg_fld _ _ _ F), (jwords_n _ _ A). unfold label. rewrite (In_smem _ _ I).
  cbn in I. repeat (destruct I as [<-|I]; [reflexivity|]). destruct I.
Qed.
Lemma binary_words : forall n op, (exists ty, In (ty, op) binary_symbols /\ has_op n ty) -> seg n "op" = name_in binary_symbols op.
Proof.
  intros n op (ty & I & H). rewrite (name_words n ty); [|apply in_or_app; left; apply (in_map fst _ _ I)|exact H].
  cbn in I. repeat (destruct I as [I|I]; [injection I as <- <-; reflexivity|]). destruct I.
Qed.
Lemma compare_words : forall n op, (exists ty, In (ty, op) compare_symbols /\ has_op n ty) -> seg n "op" = name_in compare_symbols op.
Proof.
  intros n op (ty & I & H). rewrite (name_words n ty); [|apply in_or_app; right; apply in_or_app; left; apply (in_map fst _ _ I)|exact H].
  cbn in I. repeat (destruct I as [I|I]; [injection I as <- <-; reflexivity|]). destruct I.
Qed.

Lemma vnode_words : forall e v, vnode e v -> jwords v = ewords e.
Proof.
  induction e as [y|z|hx s|s|bs|b|op a b IHa IHb|op a b IHa IHb|both a b more IHa IHb IHm|a IHa|a IHa|a IHa|a y IHa|a i more IHa IHi IHm|f args kws IHf IHa IHk|l IHl|l IHl|l IHl]
    using vexp_ind'; intros n N; cbn [vnode] in N; cbn [ewords].
  - destruct N as (A & _). plain A. reflexivity.
  - destruct N as (A & _). plain A. reflexivity.
  - destruct N as (A & _). destruct hx; plain A; reflexivity.
  - destruct N as (A & _). plain A. reflexivity.
  - destruct N as (A & _). plain A. reflexivity.
  - destruct N as (A & _). plain A. reflexivity.
  - destruct N as (A & O & Ha & Hb). plain A. rewrite (binary_words _ _ O). child Ha. child Hb. now rewrite (IHa _ X), (IHb _ X0).
  - destruct N as (A & O & Ha & Hb). plain A. rewrite (compare_words _ _ O). child Ha. child Hb. now rewrite (IHa _ X), (IHb _ X0).
  - destruct N as (A & O & x & y & l & F & Xa & Xb & Xl). plain A. rewrite (name_words _ (if both then "And" else "Or") ltac:(destruct both; vm_compute; tauto) O), (seg_fld _ _ _ F).
    apply elements_Forall2 in Xl. change (jwords (JArr (x :: y :: l))) with (jwords x ++ jwords y ++ jwords (JArr l)).
    now rewrite (IHa _ Xa), (IHb _ Xb), (arr_words _ ewords vnode more l Xl IHm).
  - destruct N as (A & O & Ha). plain A. rewrite (name_words _ "Not" ltac:(vm_compute; tauto) O). child Ha. now rewrite (IHa _ X).
  - destruct N as (A & O & Ha). plain A. rewrite (name_words _ "Invert" ltac:(vm_compute; tauto) O). child Ha. now rewrite (IHa _ X).
  - destruct N as (A & O & Ha). plain A. rewrite (name_words _ "USub" ltac:(vm_compute; tauto) O). child Ha. now rewrite (IHa _ X).
  - destruct N as (A & Ha & _). plain A. child Ha. exact (IHa _ X).
  - destruct N as (A & Ha & s & v & Fs & As & Fv & Xi). plain A. child Ha. rewrite (IHa _ X), (seg_fld _ _ _ Fs). f_equal. plain As. rewrite (seg_fld _ _ _ Fv).
    destruct more as [|m more]; [rewrite (IHi _ Xi); cbn [each_of flat_map]; now rewrite app_nil_r|].
    destruct Xi as (x & l & At & Fl & Xi & Xl). plain At. rewrite (seg_fld _ _ _ Fl). apply elements_Forall2 in Xl.
    change (jwords (JArr (x :: l))) with (jwords x ++ jwords (JArr l)). now rewrite (IHi _ Xi), (arr_words _ ewords vnode (m :: more) l Xl IHm).
  - destruct N as (A & Hf & (l & Fl & Xl) & ks & Fk & Xk). plain A. child Hf. rewrite (seg_fld _ _ _ Fl), (seg_fld _ _ _ Fk), (IHf _ X).
    apply elements_Forall2 in Xl. apply kws_nodes in Xk. rewrite (arr_words _ ewords vnode args l Xl IHa).
    rewrite (arr_words _ (fun kv => ewords (snd kv)) kwnode kws ks Xk); [reflexivity|].
    apply Forall_forall. intros kv I w (Ak & _ & x & Fx & Nx). plain Ak. rewrite (seg_fld _ _ _ Fx). rewrite Forall_forall in IHk. exact (IHk kv I x Nx).
  - destruct N as (A & ns & F & X). plain A. rewrite (seg_fld _ _ _ F). apply elements_Forall2 in X. exact (arr_words _ ewords vnode l ns X IHl).
  - destruct N as (A & ns & F & X). plain A. rewrite (seg_fld _ _ _ F). apply elements_Forall2 in X. exact (arr_words _ ewords vnode l ns X IHl).
  - destruct N as (A & ks & vs & Fk & Fv & X). plain A. rewrite (seg_fld _ _ _ Fk), (seg_fld _ _ _ Fv). apply dict_nodes in X. destruct X as (Xk & Xv).
    rewrite (arr_words _ (fun kv => ewords (fst kv)) (fun kv => vnode (fst kv)) l ks Xk), (arr_words _ (fun kv => ewords (snd kv)) (fun kv => vnode (snd kv)) l vs Xv); [reflexivity| |];
      (eapply Forall_impl; [|exact IHl]; intros kv (H1 & H2); assumption).
Qed.

Lemma tnode_words : forall t v, tnode t v -> jwords v = twords t.
Proof.
  intros [e|l] v N; cbn [tnode twords] in *; [exact (vnode_words _ _ N)|]. destruct N as (A & ns & F & X). plain A. rewrite (seg_fld _ _ _ F).
  apply elements_Forall2 in X. exact (arr_words_all _ ewords vnode l ns X vnode_words).
Qed.

Lemma csnode_words : forall s v, csnode s v -> jwords v = swords s.
Proof.
  induction s as [e|t e|t op e|t ty e|e|e m|e|e|w|e body orelse IHb IHo|t it body IHb] using vstmt_ind'; intros n N; cbn [csnode snode] in N; cbn [swords].
  - destruct N as (A & He). plain A. child He. exact (vnode_words _ _ X).
  - destruct N as (A & Ht & He). plain A. child Ht. child He. now rewrite (tnode_words _ _ X), (tnode_words _ _ X0).
  - destruct N as (A & O & Ht & He). plain A. rewrite (binary_words _ _ O). child Ht. child He. now rewrite (vnode_words _ _ X), (vnode_words _ _ X0).
  - destruct N as (A & Ht & Hy & He). plain A. child Ht. child Hy. now rewrite (vnode_words _ _ X), (vnode_words _ _ X0), (seg_onode _ ewords vnode _ _ _ vnode_words He).
  - destruct N as (A & He). plain A. exact (seg_onode _ twords tnode _ _ _ tnode_words He).
  - destruct N as (A & He & Hm). plain A. child He. now rewrite (vnode_words _ _ X), (seg_onode _ ewords vnode _ _ _ vnode_words Hm).
  - destruct N as (A & He). plain A. child He. exact (vnode_words _ _ X).
  - destruct N as (A & He). plain A. child He. exact (vnode_words _ _ X).
  - destruct N as (ty & I & A). cbn in I. repeat (destruct I as [I|I]; [injection I as <- <-; plain A; reflexivity|]). destruct I.
  - destruct N as (A & He & (nb & Fb & Nb) & (no & Fo & No) & _). plain A. child He.
    now rewrite (vnode_words _ _ X), (seg_fld _ _ _ Fb), (seg_fld _ _ _ Fo), (block_words _ swords csnode body nb Nb IHb), (block_words _ swords csnode orelse no No IHo).
  - destruct N as (A & Ht & Hi & (nb & Fb & Nb)). plain A. child Ht. child Hi.
    now rewrite (vnode_words _ _ X), (vnode_words _ _ X0), (seg_fld _ _ _ Fb), (block_words _ swords csnode body nb Nb IHb).
Qed.
Lemma body_words : forall l ns, with_comments csnode l ns -> jwords (JArr ns) = each_of swords l.
Proof. intros l ns W. apply (block_words _ swords csnode l ns W). apply Forall_forall. intros s _. exact (csnode_words s). Qed.

Lemma cdnode_words : forall d v, cdnode d v -> jwords v = dwords d.
Proof.
  intros d n N. destruct d; cbn [cdnode dnode] in N; cbn [dwords].
  - destruct N as ((A & (dn & Fd & Nd) & _ & (a & Fa & Aa & (an & Fn & Nn) & (ds & Fs & Ns) & _) & Nr & _) & (nb & Fb & Nb)). plain A.
    rewrite (seg_fld _ _ _ Fd), (seg_fld _ _ _ Fa), (seg_fld _ _ _ Fb), (arr_words_all _ ewords vnode _ _ Nd vnode_words), (seg_onode _ twords tnode _ _ _ tnode_words Nr), (body_words _ _ Nb).
    f_equal. f_equal. plain Aa. rewrite (seg_fld _ _ _ Fn), (seg_fld _ _ _ Fs), (arr_words_all _ ewords vnode _ _ Ns vnode_words). f_equal.
    refine (arr_words_all _ (fun a => opt_of ewords (va_type a)) anode _ _ Nn _). intros b w (Ab & _ & Ht). plain Ab. exact (seg_onode _ ewords vnode _ _ _ vnode_words Ht).
  - destruct N as (A & Hx & _ & _ & _ & Ht & He). plain A. child Hx. child Ht. now rewrite (vnode_words _ _ X), (tnode_words _ _ X0), (seg_onode _ ewords vnode _ _ _ vnode_words He).
  - destruct N as (_ & A & _ & (nb & Fb & Nb)). plain A. rewrite (seg_fld _ _ _ Fb). exact (body_words _ _ Nb).
  - destruct N as (A & _). plain A. reflexivity.
  - destruct N as (_ & A & _ & (nb & Fb & Nb)). destruct (kw =?s "event"); plain A; rewrite (seg_fld _ _ _ Fb); exact (body_words _ _ Nb).
  - destruct N as (A & _). plain A. reflexivity.
  - destruct N as (A & _). plain A. reflexivity.
Qed.

Lemma program_words : forall l v, cprogram_node l v -> jwords v = pwords l.
Proof.
  intros l v (A & _ & ns & F & W). plain A. rewrite (seg_fld _ _ _ F). apply (block_words _ dwords cdnode l ns W). apply Forall_forall. intros d _. exact (cdnode_words d).
Qed.
