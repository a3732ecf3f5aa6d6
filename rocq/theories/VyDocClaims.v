(** Doc strings of Vyper: concrete cases. *)
From Coq Require Import String Ascii List NArith ZArith Bool.
From Verif Require Import Base Json Printer VyPrinter Samples SpecPrinter SpecVyText SpecVyDoc VyDocFacts.
Import ListNotations.
Open Scope string_scope.
Open Scope list_scope.

Definition vn (ty : string) (fields : list (string * json)) : json := JObj (("ast_type", JStr ty) :: fields).
Definition jvdoc (text : string) : json := vn "DocStr" [("value", JStr text)].

(** def f(): with the one statement "pass". *)
Definition pass_fields : list (string * json) :=
  [("decorator_list", JArr []); ("name", JStr "f");
   ("args", vn "arguments" [("args", JArr []); ("defaults", JArr [])]);
   ("returns", JNull); ("body", JArr [vn "Pass" []])].
Definition bare_def : json := vn "FunctionDef" (("doc_string", JNull) :: pass_fields).
Definition doc_def (text : string) : json := vn "FunctionDef" (("doc_string", jvdoc text) :: pass_fields).

Definition bare_mod : json := vn "Module" [("doc_string", JNull); ("body", JArr [bare_def])].
Definition doc_mod (text : string) : json := vn "Module" [("doc_string", jvdoc text); ("body", JArr [bare_def])].

Lemma doc_def_with : forall text, with_doc_string "FunctionDef" text bare_def (doc_def text).
Proof.
  intros text. split; [reflexivity|]. split; [right; reflexivity|]. split; [|exists (jvdoc text); split; reflexivity].
  intros k K. unfold doc_def, bare_def, vn, oget. cbn [assoc].
  destruct (k =?s "ast_type"); [reflexivity|]. destruct (k =?s "doc_string") eqn:E; [apply String.eqb_eq in E; congruence|reflexivity].
Qed.

Lemma doc_mod_with : forall text, with_doc_string "Module" text bare_mod (doc_mod text).
Proof.
  intros text. split; [reflexivity|]. split; [right; reflexivity|]. split; [|exists (jvdoc text); split; reflexivity].
  intros k K. unfold doc_mod, bare_mod, vn, oget. cbn [assoc].
  destruct (k =?s "ast_type"); [reflexivity|]. destruct (k =?s "doc_string") eqn:E; [apply String.eqb_eq in E; congruence|reflexivity].
Qed.

Definition quoting : string := "The ""first""   counter, see '''f'''".

Lemma app_tail : forall a b c d s t, String.append a (String c b) = String.append s (String d t) -> blank b -> blank t -> ~ blank_char c -> ~ blank_char d -> c = d.
Proof.
  intros a b c d. induction a as [|x a IH]; intros s t E B T C D.
  - destruct s as [|y s]; cbn in E; [now injection E as <- _|]. injection E as _ E. subst b. exfalso. revert B. induction s as [|z s IS]; intros B; [exact (D (proj1 B))|exact (IS (proj2 B))].
  - destruct s as [|y s]; cbn in E.
    + injection E as -> E. subst t. exfalso. revert T. clear IH. induction a as [|z a IA]; intros T; [exact (C (proj1 T))|exact (IA (proj2 T))].
    + injection E as _ E. exact (IH s t E B T C D).
Qed.

Lemma quoting_plain : plain_doc quoting.
Proof.
  split; [reflexivity|]. split.
  - intros a b E.
    assert (G : forall u, bad (scan clear (String.append u (String.append quotes3 b))) = true).
    { intros u. generalize clear. induction u as [|c u IH]; intros x; [|exact (IH _)]. cbn [String.append]. unfold quotes3. cbn [scan String.append].
      apply bad_stays. cbn. destruct (run x) as [|[|k]]; cbn; apply orb_true_r. }
    specialize (G a). rewrite <- E in G. vm_compute in G. discriminate G.
  - intros a b B E. assert (X : "'"%char = """"%char); [|discriminate X].
    refine (app_tail "The ""first""   counter, see '''f''" "" "'" """" a b E Logic.I B _ _); intros [Y|Y]; discriminate Y.
Qed.

Lemma doc_def_text : exec (std_geo true) (vy_emit (vy_default true (fun _ => "")) (doc_def quoting)) fresh =
  Ok (fold_right String.append "" ["def f():"; nl; "    """"""The ""first"" counter, see '''f'''"""""""; nl; nl; "    pass"], PState 4 9 0).
Proof. vm_compute. reflexivity. Qed.

Definition trailing : string := "The counter ""x""".
Definition slashed : string := "Kept in C:\".

(** The string ends one quote too early; it does not end. *)
Lemma doc_string_refuted : forall oc fl,
  (exists o left, vy_print oc fl (doc_mod trailing) = Ok (String.append quotes3 o) /\
     upto_quotes o = Some ("The counter ""x", String """" left)) /\
  (exists o, vy_print oc fl (doc_mod slashed) = Ok (String.append quotes3 o) /\ upto_quotes o = None) /\
  exists o left, vy_print oc fl (doc_def trailing) = Ok (String.append "def f():" (String.append nl (String.append "    " (String.append quotes3 o)))) /\
     upto_quotes o = Some ("The counter ""x", String """" left).
Proof.
  intros oc fl. split; [|split].
  - exists (String.append trailing (String.append quotes3 (String.append nl (String.append nl (String.append "def f():" (String.append nl (String.append "    pass" (String.append nl nl)))))))). eexists. split; [destruct oc; vm_compute; reflexivity|reflexivity].
  - exists (String.append slashed (String.append quotes3 (String.append nl (String.append nl (String.append "def f():" (String.append nl (String.append "    pass" (String.append nl nl)))))))). split; [destruct oc; vm_compute; reflexivity|reflexivity].
  - exists (String.append trailing (String.append quotes3 (String.append nl (String.append nl "    pass")))). eexists. split; [destruct oc; vm_compute; reflexivity|reflexivity].
Qed.
