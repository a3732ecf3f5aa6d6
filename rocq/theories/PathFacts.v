(** Facts about paths and file names. *)
From Coq Require Import String Ascii List Bool NArith Arith Lia.
From Coq Require DecimalString DecimalFacts DecimalN DecimalPos.
Import DecimalString.
From Verif Require Import Base JsonFacts Paths Generator SpecGenerator.
Import ListNotations.
Open Scope string_scope.
Open Scope list_scope.

Lemma string_length_app a b : String.length (String.append a b) = String.length a + String.length b.
Proof. induction a; simpl; congruence. Qed.

(** A proper file name. *)
Definition proper (s : string) : Prop :=
  s <> "" /\ s <> "." /\ s <> ".." /\ str_contains "/"%char s = false.

Lemma split_on_nonempty c s : split_on c s <> [].
Proof. induction s as [|d s IH]; simpl; [discriminate|]. destruct (Ascii.eqb c d); [discriminate|]. destruct (split_on c s); discriminate. Qed.

Lemma split_on_sep c a b : split_on c (String.append a (String c b)) = split_on c a ++ split_on c b.
Proof.
  induction a as [|d a IH]; simpl.
  - now rewrite Ascii.eqb_refl.
  - destruct (Ascii.eqb c d); [now rewrite IH|]. rewrite IH. pose proof (split_on_nonempty c a).
    destruct (split_on c a); [contradiction|reflexivity].
Qed.

Lemma split_on_pieces c s w : In w (split_on c s) -> str_contains c w = false.
Proof.
  revert w. induction s as [|d s IH]; intros w; simpl.
  - intros [<-|[]]. reflexivity.
  - destruct (Ascii.eqb c d) eqn:E.
    + intros [<-|H]; [reflexivity|now apply IH].
    + pose proof (split_on_nonempty c s). destruct (split_on c s) as [|x l] eqn:El; [contradiction|].
      intros [<-|H']; simpl; [rewrite E; apply IH; now left|apply IH; now right].
Qed.

(** The last component of [dir/name]. *)
Lemma components_last a s : proper s -> exists l, components (String.append a (String "/" s)) = l ++ [s].
Proof.
  intros (H1 & H2 & H3 & H4). unfold components. rewrite split_on_sep, (split_on_none "/" s H4).
  pose proof (split_on_nonempty "/" a). destruct (split_on "/" a) as [|f rest]; [contradiction|]. simpl.
  rewrite filter_app. simpl.
  destruct s as [|x s]; [congruence|]. cbn [is_empty_str orb].
  destruct (String.eqb_spec (String x s) ".") as [E|_]; [congruence|]. cbn [negb].
  rewrite app_assoc. eauto.
Qed.

Lemma components_single s : proper s -> components s = [s].
Proof.
  intros (H1 & H2 & H3 & H4). unfold components. rewrite (split_on_none "/" s H4).
  destruct s; [congruence|reflexivity].
Qed.

Lemma file_name_last s l p : proper s -> components p = l ++ [s] -> file_name p = Some s.
Proof.
  intros (H1 & H2 & H3 & _) E. unfold file_name. rewrite E, rev_app_distr. simpl.
  destruct (String.eqb_spec s "."); [congruence|]. destruct (String.eqb_spec s ".."); [congruence|]. reflexivity.
Qed.

Lemma append_assoc a b c : String.append (String.append a b) c = String.append a (String.append b c).
Proof. induction a; simpl; congruence. Qed.

Lemma ends_with_slash_split d : ends_with_slash d = true -> exists d0, d = String.append d0 "/".
Proof.
  induction d as [|c d IH]; [discriminate|]. simpl. destruct d as [|c' d].
  - intros E. apply Ascii.eqb_eq in E as ->. now exists "".
  - intros E. destruct (IH E) as (d0 & E0). exists (String c d0). simpl. now rewrite <- E0.
Qed.

Lemma proper_no_slash s : proper s -> starts_with_slash s = false.
Proof.
  intros (_ & _ & _ & H). destruct s as [|c s]; [reflexivity|]. cbn [str_contains starts_with_slash] in *.
  rewrite Ascii.eqb_sym. destruct (Ascii.eqb "/" c); [discriminate|reflexivity].
Qed.

(** Joining puts the name last. *)
Lemma join_last d s : proper s ->
  exists l, components (path_join d s) = l ++ [s].
Proof.
  intros H. unfold path_join. rewrite (proper_no_slash s H).
  destruct d as [|c d]; cbn [is_empty_str orb].
  - exists []. simpl. now apply components_single.
  - destruct (ends_with_slash (String c d)) eqn:E.
    + apply ends_with_slash_split in E as (d0 & ->). rewrite append_assoc. now apply components_last.
    + now apply components_last.
Qed.

Lemma file_name_join d s : proper s -> file_name (path_join d s) = Some s.
Proof. intros H. destruct (join_last d s H) as (l & E). now apply (file_name_last s l). Qed.

Lemma join_inj d s s' : proper s -> proper s' -> path_join d s = path_join d s' -> s = s'.
Proof. intros H H' E. assert (A := file_name_join d s H). rewrite E, file_name_join in A by exact H'. congruence. Qed.

(** What [file_name] returns is a proper name. *)
Lemma file_name_proper p s : file_name p = Some s -> proper s.
Proof.
  unfold file_name, components. pose proof (split_on_nonempty "/" p) as Hn. pose proof (split_on_pieces "/" p) as Hp.
  destruct (split_on "/" p) as [|f rest]; [contradiction|].
  set (l := (if is_empty_str f then [] else [f]) ++ filter (fun c => negb (is_empty_str c || (c =?s "."))%bool) rest).
  assert (Hl : forall x, In x l -> x <> "" /\ str_contains "/"%char x = false).
  { intros x Hx. unfold l in Hx. apply in_app_or in Hx as [Hx|Hx].
    - destruct f as [|c f]; [destruct Hx|]. destruct Hx as [<-|[]]. split; [discriminate|]. apply Hp. now left.
    - apply filter_In in Hx as (Hi & Hx). split; [|apply Hp; now right]. destruct x; [discriminate|discriminate]. }
  destruct (rev l) as [|x l'] eqn:E; [discriminate|].
  destruct (x =?s ".") eqn:E1; [discriminate|]. destruct (x =?s "..") eqn:E2; [discriminate|].
  cbn [orb]. intros H. injection H as <-.
  assert (Hi : In x l) by (apply in_rev; rewrite E; now left).
  destruct (Hl x Hi) as (A & B). split; [exact A|]. split; [intros ->; discriminate|]. split; [intros ->; discriminate|exact B].
Qed.

(** ** Numbers in names *)
Definition is_digit (c : ascii) : bool :=
  let n := N_of_ascii c in (N.leb 48 n && N.leb n 57)%bool.
Fixpoint all_digits (s : string) : bool :=
  match s with EmptyString => true | String c s => is_digit c && all_digits s end.

Lemma string_of_uint_digits u : all_digits (NilEmpty.string_of_uint u) = true.
Proof. induction u; simpl; auto. Qed.

Lemma show_N_digits n : all_digits (show_N n) = true.
Proof. unfold show_N, NilZero.string_of_uint. destruct (N.to_uint n); try reflexivity; apply string_of_uint_digits. Qed.

Lemma show_N_nonempty n : show_N n <> "".
Proof. unfold show_N, NilZero.string_of_uint. destruct (N.to_uint n); discriminate. Qed.

Lemma show_N_inj n m : show_N n = show_N m -> n = m.
Proof.
  unfold show_N. intros H. apply (f_equal NilZero.uint_of_string) in H.
  assert (Hz : forall k, N.to_uint k <> Decimal.Nil).
  { intros k. destruct k as [|p]; [discriminate|]. exact (DecimalPos.Unsigned.to_uint_nonnil p). }
  rewrite !NilZero.usu in H by apply Hz. injection H as H. now apply DecimalN.Unsigned.to_uint_inj.
Qed.

(** Splitting at the last occurrence of a character is unique. *)
Lemma contains_app c a b : str_contains c (String.append a b) = (str_contains c a || str_contains c b)%bool.
Proof. induction a as [|d a IH]; simpl; [reflexivity|]. destruct (Ascii.eqb c d); [reflexivity|exact IH]. Qed.

Lemma split_last_unique c : forall x x' y y',
  str_contains c y = false -> str_contains c y' = false ->
  String.append x (String c y) = String.append x' (String c y') -> x = x' /\ y = y'.
Proof.
  induction x as [|d x IH]; intros [|d' x'] y y' Hy Hy' E; simpl in E.
  - injection E as ->. auto.
  - injection E as <- ->. rewrite contains_app in Hy. simpl in Hy. rewrite Ascii.eqb_refl in Hy.
    rewrite orb_true_r in Hy. discriminate.
  - injection E as -> <-. rewrite contains_app in Hy'. simpl in Hy'. rewrite Ascii.eqb_refl in Hy'.
    rewrite orb_true_r in Hy'. discriminate.
  - injection E as -> E. destruct (IH x' y y' Hy Hy' E). split; congruence.
Qed.

Lemma digits_no c s : is_digit c = false -> all_digits s = true -> str_contains c s = false.
Proof.
  intros Hc. induction s as [|d s IH]; simpl; [reflexivity|]. intros H. apply andb_true_iff in H as (H1 & H2).
  destruct (Ascii.eqb_spec c d) as [->|_]; [congruence|now apply IH].
Qed.

Fixpoint last_char (s : string) : option ascii :=
  match s with
  | EmptyString => None
  | String c EmptyString => Some c
  | String _ s => last_char s
  end.

Lemma last_char_app a b : b <> "" -> last_char (String.append a b) = last_char b.
Proof.
  intros Hb. induction a as [|c a IH]; [reflexivity|]. simpl. destruct (String.append a b) eqn:E; [|exact IH].
  destruct a; [simpl in E; congruence|discriminate].
Qed.

Lemma ends_with_last suf s : suf <> "" -> ends_with suf s = true -> last_char s = last_char suf.
Proof.
  intros Hs. induction s as [|c s IH]; cbn [ends_with]; intros H; apply orb_true_iff in H as [H|H].
  - apply String.eqb_eq in H. now subst.
  - discriminate.
  - apply String.eqb_eq in H. now subst.
  - rewrite <- (IH H). destruct s; [|reflexivity]. cbn [ends_with] in H.
    apply orb_true_iff in H as [H|H]; [apply String.eqb_eq in H; congruence|discriminate].
Qed.

Lemma last_digit s : s <> "" -> all_digits s = true -> exists c, last_char s = Some c /\ is_digit c = true.
Proof.
  induction s as [|c s IH]; [congruence|]. intros _ H. cbn [all_digits] in H. apply andb_true_iff in H as (H1 & H2).
  destruct s as [|d s]; [exists c; auto|]. destruct (IH ltac:(discriminate) H2) as (x & A & B). exists x. auto.
Qed.

(** The extensions of the two languages. *)
Definition known_ext (ext : string) : Prop := ext = "sol" \/ ext = "vy".

Lemma numbered_proper base ext k : proper base -> known_ext ext -> proper (numbered base ext k).
Proof.
  intros (H1 & _ & _ & H4) He. unfold numbered.
  assert (Hlen : 3 <= String.length (String.append base (String "_" (String.append (show_N (N.of_nat k)) (String "." ext))))).
  { rewrite string_length_app. cbn [String.length]. rewrite string_length_app. cbn [String.length].
    destruct base; [congruence|]. cbn [String.length]. lia. }
  split; [intros E; rewrite E in Hlen; simpl in Hlen; lia|].
  split; [intros E; rewrite E in Hlen; simpl in Hlen; lia|].
  split; [intros E; rewrite E in Hlen; simpl in Hlen; lia|].
  rewrite contains_app, H4. cbn [orb str_contains]. rewrite contains_app.
  rewrite (digits_no "/" _ eq_refl (show_N_digits _)). destruct He as [->| ->]; reflexivity.
Qed.

Lemma numbered_inj b b' e e' k k' : known_ext e -> known_ext e' ->
  numbered b e k = numbered b' e' k' -> b = b' /\ e = e' /\ k = k'.
Proof.
  intros He He' H. unfold numbered in H.
  assert (A : forall x, known_ext x -> str_contains "." x = false) by (intros x [->| ->]; reflexivity).
  change (String "_" (String.append (show_N (N.of_nat k)) (String "." e)))
    with (String.append (String "_" (show_N (N.of_nat k))) (String "." e)) in H.
  change (String "_" (String.append (show_N (N.of_nat k')) (String "." e')))
    with (String.append (String "_" (show_N (N.of_nat k'))) (String "." e')) in H.
  rewrite <- !append_assoc in H. apply split_last_unique in H as (H & ->); [|now apply A|now apply A].
  apply split_last_unique in H as (-> & H); [|now apply digits_no, show_N_digits|now apply digits_no, show_N_digits].
  apply show_N_inj in H. split; [reflexivity|]. split; [reflexivity|lia].
Qed.

Lemma short_name_proper base k : proper base ->
  proper (String.append base (String.append "_" (show_N (N.of_nat k)))).
Proof.
  intros (H1 & _ & _ & H4).
  assert (Hlen : 3 <= String.length (String.append base (String.append "_" (show_N (N.of_nat k))))).
  { rewrite !string_length_app. simpl. destruct base; [congruence|]. simpl.
    pose proof (show_N_nonempty (N.of_nat k)). destruct (show_N (N.of_nat k)); [congruence|]. simpl. lia. }
  split; [intros E; rewrite E in Hlen; simpl in Hlen; lia|].
  split; [intros E; rewrite E in Hlen; simpl in Hlen; lia|].
  split; [intros E; rewrite E in Hlen; simpl in Hlen; lia|].
  rewrite contains_app, H4. cbn [orb str_contains String.append]. apply (digits_no "/" _ eq_refl (show_N_digits _)).
Qed.

Lemma mutant_name_eq ext file outdir k base : known_ext ext -> file_name file = Some base ->
  mutant_name ext file outdir k = Ok (path_join outdir (numbered base ext k)).
Proof.
  intros He Hf. unfold mutant_name. rewrite Hf. unfold printed_name.
  pose proof (file_name_proper _ _ Hf) as Hp.
  rewrite file_name_join by now apply short_name_proper.
  replace (ends_with _ _) with false.
  - f_equal. unfold numbered. now rewrite !append_assoc.
  - symmetry. destruct (ends_with _ _) eqn:E; [|reflexivity].
    apply ends_with_last in E; [|discriminate].
    unfold path_join in E. rewrite (proper_no_slash _ (short_name_proper base k Hp)) in E.
    destruct (last_digit _ (show_N_nonempty (N.of_nat k)) (show_N_digits (N.of_nat k))) as (c & Hc & Hd).
    assert (Hl : forall d, last_char (String.append d (String.append base (String.append "_" (show_N (N.of_nat k))))) = Some c).
    { intros d. rewrite last_char_app. 2:{ destruct base; discriminate. }
      rewrite last_char_app by discriminate. rewrite last_char_app by apply show_N_nonempty. exact Hc. }
    assert (Hx : last_char (String.append "." ext) = Some "l"%char \/ last_char (String.append "." ext) = Some "y"%char)
      by (destruct He as [->| ->]; auto).
    destruct ((is_empty_str outdir || ends_with_slash outdir)%bool).
    + rewrite Hl in E. rewrite <- E in Hx. destruct Hx as [Hx|Hx]; injection Hx as ->; discriminate.
    + change (String "/" (String.append base (String.append "_" (show_N (N.of_nat k)))))
        with (String.append "/" (String.append base (String.append "_" (show_N (N.of_nat k))))) in E.
      rewrite <- append_assoc, Hl in E. rewrite <- E in Hx. destruct Hx as [Hx|Hx]; injection Hx as ->; discriminate.
Qed.
