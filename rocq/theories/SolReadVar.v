(** The tokens of Solidity declarations are read as the declarations. *)
From Coq Require Import String Ascii List NArith ZArith Bool Lia.
From Verif Require Import Base Json SpecLiteral SpecVyText SpecSolText SpecSolRead LitFacts PathFacts SolReadLex SolReadToks SolReadToks2 SolTextClaims SolReadParse SolReadExp.
From Verif Require SolText.
Import ListNotations.
Open Scope string_scope.
Open Scope list_scope.

(** With enough fuel, [p] reads [ts] as [a] before whatever [c] allows. *)
Definition ok {A} (p : nat -> parser A) (c : list token -> Prop) (ts : list token) (a : A) : Prop :=
  exists N, forall f, N <= f -> forall rest, c rest -> p f (ts ++ rest) = Some (a, rest).

Lemma ok_all : forall {A} (p : nat -> parser A) (c : list token -> Prop) (toks : A -> list token) l, (forall a, In a l -> ok p c (toks a) a) ->
  exists N, forall a, In a l -> forall f, N <= f -> forall rest, c rest -> p f (toks a ++ rest) = Some (a, rest).
Proof.
  intros A p c toks l. induction l as [|a l IH]; intros H; [exists 0; intros a []|].
  destruct (H a (or_introl eq_refl)) as (N & Ha). destruct IH as (N2 & Hl); [intros x Hx; apply H; now right|].
  exists (N + N2). intros x [<-|Hx] f Hf; [apply Ha; lia|apply Hl; [exact Hx|lia]].
Qed.

Lemma ok_weak : forall {A} (p : nat -> parser A) (c d : list token -> Prop) ts a, (forall r, d r -> c r) -> ok p c ts a -> ok p d ts a.
Proof. intros A p c d ts a I (N & H). exists N. intros f F rest R. apply H; auto. Qed.

Definition expression (f : nat) : parser sexp := expr f 3.
Definition type_of (f : nat) : parser sexp := typ f (expr f 3).

Lemma exp_ok : forall e, exp_spelled e = true -> ok expression (stops 3) (xtoks e) e.
Proof.
  intros e H. unfold exp_spelled in H. apply andb_true_iff in H. destruct H as (T & Sp). destruct (fine_good e (exp_fine e) T Sp) as (N & G).
  exists N. intros f F rest St. apply G; [exact F|pose proof (tightness_max e Sp); lia|exact St].
Qed.
Lemma type_ok : forall t, type_spelled t = true -> ok type_of (tstops t) (xtoks t) t.
Proof.
  intros t H. unfold type_spelled in H. apply andb_true_iff in H. destruct H as (T & Sp). destruct (fine_type t (exp_fine t) T Sp) as (N & G).
  exists N. intros f F rest St. now apply G.
Qed.
Lemma exp_open : forall e r, exp_spelled e = true -> opening 3 (xtoks e ++ r).
Proof.
  intros e r H. unfold exp_spelled in H. apply andb_true_iff in H. destruct H as (T & Sp). apply negb_true_iff in T.
  apply opening_app, opening_mono with (tightness e); [now apply exp_opening|]. pose proof (tightness_max e Sp). lia.
Qed.
Lemma exp_not_sym : forall e s r, exp_spelled e = true -> smem s ("(" :: "[" :: prefixes) = false -> sym s (xtoks e ++ r) = None.
Proof. intros e s r H S. apply open_not_sym with 3; [now apply exp_open|exact S]. Qed.

(** ** The words of a declaration *)

Definition ended (rest : list token) : Prop := match rest with KSym s :: _ => smem s [","; ")"; ";"; "="] = true | _ => False end.

Lemma ended_cases : forall rest, ended rest -> exists s r, rest = KSym s :: r /\ In s [","; ")"; ";"; "="].
Proof. intros [|[] r] H; try (exact (False_ind _ H)). exists s, r. split; [reflexivity|]. exact (proj1 (smem_In _ _) H). Qed.
Lemma ended_tstops : forall t rest, ended rest -> tstops t rest.
Proof. intros t rest H. destruct (ended_cases rest H) as (s & r & -> & I). apply tstops_sym; intros ->; cbn in I; intuition discriminate. Qed.

Definition no_open (ts : list token) : Prop := sym "(" ts = None.

Definition wordy_toks (ts : list token) : Prop := forall r, no_open r -> no_open (ts ++ r).

(** The words [ts] turn [v] into [v']. *)
Definition runs (v : svar) (ts : list token) (v' : svar) : Prop :=
  exists k N, forall f r, N <= f -> no_open r -> var_words (k + f) v (ts ++ r) = var_words f v' r.

Lemma runs_refl : forall v, runs v [] v.
Proof. intros. exists 0, 0. reflexivity. Qed.
Lemma runs_trans : forall a s b t c, runs a s b -> wordy_toks t -> runs b t c -> runs a (s ++ t) c.
Proof.
  intros a s b t c (k1 & N1 & H1) W (k2 & N2 & H2). exists (k1 + k2), (N1 + N2). intros f r F No.
  rewrite <- Nat.add_assoc, <- app_assoc, H1; [|lia|now apply W]. apply H2; [lia|exact No].
Qed.
Lemma runs_step : forall v w v', (forall f r, var_words (Datatypes.S f) v (KWord w :: r) = var_words f v' r) -> runs v [KWord w] v'.
Proof. intros v w v' H. exists 1, 0. intros f r _ _. apply H. Qed.

Lemma path_items : forall (l : list sexp), forallb path_spelled l = true -> l <> [] -> forall g rest, List.length l <= g ->
  items1 g (fun ts => then_ (path ts) (fun x r => Some (XId x, r))) ")" (commas (map id_toks l) ++ KSym ")" :: rest) = Some (l, rest).
Proof.
  intros l H Ne g rest G. rewrite forallb_forall in H. apply items1_ok; [exact Ne|discriminate| |exact G].
  intros e r I (r2 & B). specialize (H e I). destruct e; try discriminate H. cbn [id_toks]. cbn in H.
  rewrite path_ok; [reflexivity|exact H|]. destruct B as [-> | ->]; discriminate.
Qed.

Lemma override_ok : forall o r, maybe (forallb path_spelled) o = true -> no_open r -> forall g, 
  match o with Some l => List.length l <= g | None => True end ->
  match o with Some l => exists r', override_toks o ++ r = KWord "override" :: r' /\ override_list g r' = Some (l, r) | None => override_toks o = [] end.
Proof.
  intros [[|e l]|] r H No g G; [| |reflexivity].
  - exists r. split; [reflexivity|]. unfold override_list. now rewrite No.
  - exists (KSym "(" :: commas (map id_toks (e :: l)) ++ KSym ")" :: r). split; [cbn [override_toks]; napp; reflexivity|].
    unfold override_list. cbn [sym String.eqb Ascii.eqb Bool.eqb]. apply path_items; [exact H|discriminate|exact G].
Qed.

Lemma wtoks_open : forall x, wordy_toks (wtoks x).
Proof. intros x r H. unfold wtoks. now destruct (x =?s ""). Qed.
Lemma ftoks_open : forall b x, wordy_toks (ftoks b x).
Proof. intros [] x r H; [reflexivity|exact H]. Qed.
Lemma override_open : forall o, wordy_toks (override_toks o).
Proof. intros [[|e l]|] r H; [reflexivity|reflexivity|exact H]. Qed.
Lemma app_open : forall a b, wordy_toks a -> wordy_toks b -> wordy_toks (a ++ b).
Proof. intros a b A B r H. rewrite <- app_assoc. auto. Qed.

Lemma words_run : forall t vis con idx ovr imm loc nm, var_spelled (SVar t vis con idx ovr imm loc nm None) = true ->
  runs (bare t) (wtoks vis ++ ftoks con "constant" ++ ftoks idx "indexed" ++ override_toks ovr ++ ftoks imm "immutable" ++ wtoks loc)
       (SVar t vis con idx ovr imm loc "" None).
Proof.
  intros t vis con idx ovr imm loc nm H. unfold var_spelled in H. cbn [sv_type sv_visibility sv_override sv_location sv_name] in H. andb. unfold bare.
  apply runs_trans with (SVar t vis false false None false "" "" None); [|repeat first [apply app_open|apply ftoks_open|apply wtoks_open|apply override_open]|].
  { match goal with K : smem vis _ = true |- _ => apply smem_In in K; destruct K as [<-|[<-|[<-|[]]]]; [apply runs_refl|apply runs_step; intros f; reflexivity|apply runs_step; intros f; reflexivity] end. }
  apply runs_trans with (SVar t vis con false None false "" "" None); [|repeat first [apply app_open|apply ftoks_open|apply wtoks_open|apply override_open]|].
  { destruct con; [apply runs_step; intros f; reflexivity|apply runs_refl]. }
  apply runs_trans with (SVar t vis con idx None false "" "" None); [|repeat first [apply app_open|apply ftoks_open|apply wtoks_open|apply override_open]|].
  { destruct idx; [apply runs_step; intros f; reflexivity|apply runs_refl]. }
  apply runs_trans with (SVar t vis con idx ovr false "" "" None); [|repeat first [apply app_open|apply ftoks_open|apply wtoks_open|apply override_open]|].
  { destruct ovr as [l|]; [|apply runs_refl]. exists 1, (List.length l). intros f r F No.
    destruct (override_ok (Some l) r ltac:(assumption) No f F) as (r' & -> & E).
    cbn [Nat.add var_words]. cbn [smem String.eqb Ascii.eqb Bool.eqb]. rewrite E. reflexivity. }
  apply runs_trans with (SVar t vis con idx ovr imm "" "" None); [|repeat first [apply app_open|apply ftoks_open|apply wtoks_open|apply override_open]|].
  { destruct imm; [apply runs_step; intros f; reflexivity|apply runs_refl]. }
  match goal with K : blank_or (fun l => smem l location_words) loc = true |- _ => destruct (blank_cases _ _ K) as [->|(_ & M)]; [apply runs_refl|] end.
  apply smem_In in M. destruct M as [<-|[<-|[<-|[]]]]; apply runs_step; intros f; reflexivity.
Qed.

Lemma words_ok : forall v, var_spelled v = true -> ok (fun f => var_words f (bare (sv_type v))) ended (word_toks v) (with_value v None).
Proof.
  intros [t vis con idx ovr imm loc nm val] H. change (var_spelled (SVar t vis con idx ovr imm loc nm None) = true) in H.
  assert (E : forall f rest, ended rest -> var_words (Datatypes.S f) (SVar t vis con idx ovr imm loc "" None) (wtoks nm ++ rest) = Some (SVar t vis con idx ovr imm loc nm None, rest)).
  { intros f rest En. unfold var_spelled in H. cbn [sv_type sv_visibility sv_override sv_location sv_name] in H. andb.
    destruct (ended_cases rest En) as (s & r & -> & _).
    match goal with K : blank_or name nm = true |- _ => destruct (blank_cases _ _ K) as [->|(E & N)]; [reflexivity|] end.
    rewrite wtoks_word by exact E. cbn [app var_words].
    rewrite (name_no nm ["public"; "private"; "internal"] N eq_refl), (name_unequal nm "constant" N eq_refl), (name_unequal nm "indexed" N eq_refl),
      (name_unequal nm "override" N eq_refl), (name_unequal nm "immutable" N eq_refl), (name_no nm location_words N eq_refl).
    unfold maybe_ident. rewrite (ident_name nm _ N). reflexivity. }
  destruct (words_run t vis con idx ovr imm loc nm H) as (k & N & R). exists (k + Datatypes.S N). intros f F rest En.
  unfold word_toks. cbn [sv_type sv_visibility sv_constant sv_indexed sv_override sv_immutable sv_location sv_name with_value]. 
  replace f with (k + Datatypes.S (f - k - 1)) by lia.
  replace ((wtoks vis ++ ftoks con "constant" ++ ftoks idx "indexed" ++ override_toks ovr ++ ftoks imm "immutable" ++ wtoks loc ++ wtoks nm) ++ rest)
    with ((wtoks vis ++ ftoks con "constant" ++ ftoks idx "indexed" ++ override_toks ovr ++ ftoks imm "immutable" ++ wtoks loc) ++ (wtoks nm ++ rest)) by (napp; reflexivity).
  rewrite R; [now apply E|lia|]. apply wtoks_open. destruct (ended_cases rest En) as (s & r & -> & I). unfold no_open. cbn [sym]. rewrite eqb_not; [reflexivity|].
  intros ->. cbn in I. intuition discriminate.
Qed.

(** ** Parameters *)

Lemma smem_no : forall x l k, smem x l = true -> forallb (fun y => negb (smem y k)) l = true -> ~ In x k.
Proof.
  intros x l k H F I. apply smem_In in H. rewrite forallb_forall in F. specialize (F x H). apply negb_true_iff in F. apply smem_In in I. congruence.
Qed.

Definition after_type (ts : list token) : Prop := forall t, tstops t ts.

Lemma after_wtoks : forall x r, (x <> "" -> ~ In x ["external"; "internal"; "pure"; "view"; "returns"; "payable"]) -> after_type r -> after_type (wtoks x ++ r).
Proof. intros x r H A t. apply tstops_wtoks; [|apply A]. intros E. now apply tstops_word, H. Qed.
Lemma after_ftoks : forall b x r, ~ In x ["external"; "internal"; "pure"; "view"; "returns"; "payable"] -> after_type r -> after_type (ftoks b x ++ r).
Proof. intros [] x r H A; [|exact A]. intros t. now apply tstops_word. Qed.
Lemma after_override : forall o r, after_type r -> after_type (override_toks o ++ r).
Proof. intros [[|e l]|] r A; [| |exact A]; intros t; apply tstops_word; cbn; intuition discriminate. Qed.

Lemma after_words : forall v r, var_spelled v = true -> after_type r -> after_type (word_toks v ++ r).
Proof.
  intros v r H A. unfold var_spelled in H. andb. unfold word_toks. napp.
  apply after_wtoks; [intros _; eapply smem_no; [eassumption|reflexivity]|].
  apply after_ftoks; [cbn; intuition discriminate|]. apply after_ftoks; [cbn; intuition discriminate|]. apply after_override.
  apply after_ftoks; [cbn; intuition discriminate|]. apply after_wtoks.
  - intros E. match goal with K : blank_or _ (sv_location v) = true |- _ => destruct (blank_cases _ _ K) as [Q|(_ & M)]; [congruence|] end. now apply location_not.
  - apply after_wtoks; [|exact A]. intros E K. apply smem_In in K.
    match goal with K : blank_or _ (sv_name v) = true |- _ => destruct (blank_cases _ _ K) as [Q|(_ & M)]; [congruence|] end. rewrite name_no in K; [discriminate|exact M|reflexivity].
Qed.

Lemma with_none : forall v, match sv_value v with None => true | Some _ => false end = true -> with_value v None = v.
Proof. intros [t vis con idx ovr imm loc nm [e|]] H; [discriminate|reflexivity]. Qed.

Lemma head_ok : forall v, var_spelled v = true -> ok param ended (xtoks (sv_type v) ++ word_toks v) (with_value v None).
Proof.
  intros v H. destruct (words_ok v H) as (N1 & W). pose proof H as H0. unfold var_spelled in H0. andb.
  destruct (type_ok (sv_type v) ltac:(assumption)) as (N2 & T). exists (N1 + N2). intros f F rest En. unfold param. rewrite <- app_assoc.
  unfold type_of in T. rewrite T; [|lia|apply after_words; [exact H|intros t; now apply ended_tstops]]. cbn [then_]. apply W; [lia|exact En].
Qed.

Lemma param_toks : forall v, param_spelled v = true -> var_toks v = xtoks (sv_type v) ++ word_toks v /\ var_spelled v = true /\ with_value v None = v.
Proof.
  intros v H. unfold param_spelled in H. andb. split; [|split; [assumption|now apply with_none]]. unfold var_toks. destruct (sv_value v); [discriminate|].
  cbn [value_toks otoks]. now rewrite app_nil_r.
Qed.

Lemma param_ok : forall v, param_spelled v = true -> ok param ended (var_toks v) v.
Proof. intros v H. destruct (param_toks v H) as (-> & S & E). rewrite <- E at 3. now apply head_ok. Qed.

Lemma type_not_sym : forall t s r, spelled t = true -> is_type t = true -> sym s (xtoks t ++ r) = None.
Proof.
  intros t. induction t using sexp_ind2; intros y r Sp T; try discriminate T; cbn [spelled] in Sp; cbn [xtoks]; andb; try reflexivity.
  - destruct (path_cons x Sp) as (p & l & _ & _ & _ & ->). reflexivity.
  - rewrite <- app_assoc. auto.
Qed.
Lemma var_not_sym : forall v s r, var_spelled v = true -> sym s (var_toks v ++ r) = None.
Proof.
  intros v s r H. unfold var_spelled, type_spelled in H. andb. unfold var_toks. rewrite <- !app_assoc. now apply type_not_sym.
Qed.

Lemma params_ok : forall l, forallb param_spelled l = true -> ok params (fun _ => True) (params_toks l) l.
Proof.
  intros l H. rewrite forallb_forall in H. destruct (ok_all param ended var_toks l) as (N & P); [intros v I; now apply param_ok, H|].
  exists (N + List.length l). intros f F rest _. unfold params, params_toks. napp. cbn [sym after String.eqb Ascii.eqb Bool.eqb]. apply items_ok.
  - discriminate.
  - intros v r I. apply var_not_sym. specialize (H v I). unfold param_spelled in H. andb. assumption.
  - intros v r I (r2 & B). apply P; [exact I|lia|]. destruct B as [-> | ->]; reflexivity.
  - lia.
Qed.

(** ** Variables of the state *)

Lemma with_some : forall v, with_value (with_value v None) (sv_value v) = v.
Proof. intros []. reflexivity. Qed.

Lemma state_ok : forall v, var_spelled v = true -> maybe exp_spelled (sv_value v) = true -> ok state_var (fun _ => True) (var_toks v ++ [KSym ";"]) v.
Proof.
  intros v H V. destruct (head_ok v H) as (N & P). destruct (sv_value v) as [e|] eqn:E.
  - destruct (exp_ok e V) as (N2 & X). exists (N + N2). intros f F rest _. unfold state_var, var_toks. rewrite E. cbn [value_toks otoks].
    replace (((xtoks (sv_type v) ++ word_toks v ++ KSym "=" :: xtoks e) ++ [KSym ";"]) ++ rest) with
      ((xtoks (sv_type v) ++ word_toks v) ++ (KSym "=" :: xtoks e ++ KSym ";" :: rest)) by (napp; reflexivity).
    rewrite P; [|lia|reflexivity]. cbn [then_ sym String.eqb Ascii.eqb Bool.eqb]. unfold expression in X. rewrite X; [|lia|exact Logic.I]. cbn [then_ sym String.eqb Ascii.eqb Bool.eqb after].
    rewrite <- E, with_some. reflexivity.
  - exists N. intros f F rest _. unfold state_var, var_toks. rewrite E. cbn [value_toks otoks].
    replace (((xtoks (sv_type v) ++ word_toks v ++ []) ++ [KSym ";"]) ++ rest) with ((xtoks (sv_type v) ++ word_toks v) ++ (KSym ";" :: rest)) by (napp; reflexivity).
    rewrite P; [|lia|reflexivity]. cbn [then_ sym String.eqb Ascii.eqb Bool.eqb after]. rewrite with_none; [reflexivity|]. now rewrite E.
Qed.

(** ** Variables of functions *)

(** A type that an expression would be taken for. *)
Fixpoint common_type (t : sexp) : bool :=
  match t with TName _ p => negb p | TUser _ => true | TArr t _ => common_type t | _ => false end.

Lemma special_type : forall t r, is_type t = true -> spelled t = true -> common_type t = false -> type_begins (xtoks t ++ r) = true.
Proof.
  intros t. induction t using sexp_ind2; intros r T Sp C; try discriminate T; try discriminate C; cbn [spelled] in Sp; andb; cbn [xtoks].
  - destruct p; [|discriminate C]. cbn in *. seqb. reflexivity.
  - reflexivity.
  - rewrite <- app_assoc. now apply IHt.
  - reflexivity.
Qed.

Lemma members_spelled : forall l a, spelled a = true -> is_type a = false -> Nat.leb 16 (tightness a) = true -> is_new a = false -> is_bare a = false -> forallb name l = true ->
  forall p, as_type a = Some (TUser p) -> exists e, xtoks e = xtoks a ++ flat_map (fun q => [KSym "."; KWord q]) l /\ exp_spelled e = true /\ Nat.leb 16 (tightness e) = true /\ is_new e = false /\
    as_type e = Some (TUser (String.append p (fold_right (fun q s => String "." (String.append q s)) "" l))).
Proof.
  induction l as [|q l IH]; intros a Sp T Ti Nw Ba F p As.
  - exists a. cbn [flat_map fold_right]. rewrite app_nil_r, append_nil_s. unfold exp_spelled. rewrite T, Sp. auto.
  - cbn [forallb] in F. andb. destruct (IH (XMember a q)) with (p := String.append p (String "." q)) as (e & E1 & E2 & E3 & E4 & E5); try reflexivity; auto.
    + cbn [spelled]. rewrite Sp, T, Ti, Nw, Ba. match goal with K : name q = true |- _ => rewrite K end. reflexivity.
    + cbn [as_type]. rewrite As. reflexivity.
    + exists e. split; [rewrite E1; cbn [xtoks flat_map]; napp; reflexivity|]. split; [exact E2|]. split; [exact E3|]. split; [exact E4|].
      rewrite E5. do 2 f_equal. cbn [fold_right]. rewrite append_assoc. reflexivity.
Qed.

Lemma common_exp : forall t, is_type t = true -> spelled t = true -> common_type t = true ->
  exists e, xtoks e = xtoks t /\ exp_spelled e = true /\ Nat.leb 16 (tightness e) = true /\ is_new e = false /\ as_type e = Some t.
Proof.
  intros t. induction t using sexp_ind2; intros T Sp C; try discriminate T; try discriminate C; cbn [spelled] in Sp; andb; cbn [xtoks].
  - cbn in C. apply negb_true_iff in C. subst p. exists (XType x). cbn [xtoks ftoks]. unfold exp_spelled. cbn [is_type negb spelled as_type andb].
    match goal with K : elementary x = true |- _ => rewrite K, (elementary_no x "payable" K eq_refl) end. auto.
  - destruct (path_cons x Sp) as (p & l & E & Hp & Hl & Tk).
    destruct (members_spelled l (XId p)) with (p := p) as (e & E1 & E2 & E3 & E4 & E5); try reflexivity.
    + cbn [spelled]. now rewrite Hp.
    + exact Hl.
    + exists e. split; [rewrite E1, Tk; reflexivity|]. split; [exact E2|]. split; [exact E3|]. split; [exact E4|]. rewrite E5. do 2 f_equal. now rewrite <- join_fold, <- E, <- parts_join.
  - destruct IHt as (e & E1 & E2 & E3 & E4 & E5); auto. exists (XIndex e len). split; [cbn [xtoks]; now rewrite E1|]. unfold exp_spelled in *. andb.
    cbn [is_type negb spelled andb]. rewrite E3, E4. cbn [negb andb]. repeat match goal with K : _ = true |- _ => rewrite K end. cbn [as_type]. rewrite E5. auto.
Qed.

Lemma common_begins : forall t w r, is_type t = true -> spelled t = true -> common_type t = true -> w <> "payable" -> type_begins (xtoks t ++ KWord w :: r) = false.
Proof.
  assert (S : forall t s r, is_type t = true -> spelled t = true -> common_type t = true -> type_begins (xtoks t ++ KSym s :: r) = false).
  { intros t. induction t using sexp_ind2; intros y r T Sp C; try discriminate T; try discriminate C; cbn [spelled] in Sp; andb; cbn [xtoks].
    - cbn in C. apply negb_true_iff in C. subst p. cbn [ftoks app type_begins].
      match goal with K : elementary x = true |- _ => rewrite (elementary_no x "mapping" K eq_refl), (elementary_no x "function" K eq_refl) end. apply andb_false_r.
    - destruct (path_cons x Sp) as (p & l & _ & Hp & _ & ->). cbn [app type_begins].
      rewrite (name_unequal p "mapping" Hp eq_refl), (name_unequal p "function" Hp eq_refl), (name_unequal p "address" Hp eq_refl). reflexivity.
    - napp. auto. }
  intros t w r T Sp C W. destruct t; try discriminate T; try discriminate C; cbn [spelled] in Sp; andb; cbn [xtoks].
  - cbn in C. apply negb_true_iff in C. subst payable. cbn [ftoks app type_begins]. rewrite (eqb_not w "payable") by exact W.
    match goal with K : elementary x = true |- _ => rewrite (elementary_no x "mapping" K eq_refl), (elementary_no x "function" K eq_refl) end. apply andb_false_r.
  - destruct (path_cons x Sp) as (p & l & _ & Hp & _ & ->). cbn [app type_begins].
    rewrite (name_unequal p "mapping" Hp eq_refl), (name_unequal p "function" Hp eq_refl), (name_unequal p "address" Hp eq_refl). reflexivity.
  - napp. apply S; auto.
Qed.

Lemma local_words : forall v, local_spelled v = true -> exists w r, word_toks v = KWord w :: r /\ w <> "payable" /\ smem w units = false.
Proof.
  intros v H. unfold local_spelled, param_spelled, var_spelled in H. andb. unfold word_toks.
  repeat match goal with K : negb _ = true |- _ => apply negb_true_iff in K end. seqb.
  assert (V : sv_visibility v = "") by assumption.
  rewrite V. repeat match goal with K : _ v = false |- _ => rewrite K end. destruct (sv_override v); [discriminate|]. cbn [wtoks ftoks override_toks app String.eqb].
  match goal with K : name (sv_name v) = true |- _ => rename K into N end.
  assert (Ne : sv_name v <> "") by (intros E; rewrite E in N; discriminate N).
  match goal with K : blank_or _ (sv_location v) = true |- _ => destruct (blank_cases _ _ K) as [Q|(Q & M)] end.
  - rewrite Q. cbn [wtoks String.eqb app]. rewrite wtoks_word by exact Ne. exists (sv_name v), []. split; [reflexivity|].
    split; [now apply name_not|]. apply name_no; [exact N|reflexivity].
  - rewrite wtoks_word by exact Q. cbn [app]. eexists _, _. split; [reflexivity|]. apply smem_In in M. destruct M as [<-|[<-|[<-|[]]]]; split; try discriminate; reflexivity.
Qed.

Lemma local_ok : forall v, local_spelled v = true -> ok local_var ended (var_toks v) v.
Proof.
  intros v H. pose proof (local_param v H) as P. destruct (param_toks v P) as (Tk & Sp & Wn). destruct (local_words v H) as (w & r & Ew & Wp & Wu).
  pose proof Sp as Sp0. unfold var_spelled, type_spelled in Sp0. andb.
  destruct (common_type (sv_type v)) eqn:C.
  - destruct (common_exp (sv_type v)) as (e & E1 & E2 & _ & _ & E5); auto. destruct (exp_ok e E2) as (N1 & X). destruct (words_ok v Sp) as (N2 & W).
    exists (N1 + N2). intros f F rest En. unfold local_var. rewrite Tk, <- app_assoc.
    assert (B : type_begins (xtoks (sv_type v) ++ word_toks v ++ rest) = false) by (rewrite Ew; cbn [app]; apply common_begins; auto).
    rewrite B, <- E1. unfold expression in X. rewrite X; [|lia|].
    + cbn [then_]. rewrite E5. specialize (W f ltac:(lia) rest En). rewrite Ew in *. cbn [app] in *. rewrite W. now rewrite Wn.
    + rewrite Ew. cbn [app stops rank]. rewrite (eqb_not w "payable") by exact Wp. now rewrite Wu.
  - destruct (param_ok v P) as (N & Q). exists N. intros f F rest En. unfold local_var. 
    assert (B : type_begins (var_toks v ++ rest) = true) by (rewrite Tk, <- app_assoc; apply special_type; auto). rewrite B. now apply Q.
Qed.
