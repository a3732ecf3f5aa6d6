(** What it means for a store of preferences to behave as a store, and for two
    stores to hold the same settings. *)
From Coq Require Import String Ascii List NArith ZArith Bool.
From Verif Require Import Base Json SpecJson Prefs.
Import ListNotations.
Open Scope string_scope.
Open Scope list_scope.

(** The last entry for [k] in a history of updates is [v]. *)
Definition last_update (h : list (string * pval)) (k : string) (v : pval) : Prop :=
  exists before after, h = before ++ (k, v) :: after /\ ~ In k (map fst after).

(** The store after a history of updates. *)
Definition after_updates (h : list (string * pval)) : prefs :=
  fold_left (fun p kv => set_value p (fst kv) (snd kv)) h new_prefs.

(** Equality of values, for maps without regard to the order of the entries. *)
Inductive both {A} (R : A -> A -> Prop) : option A -> option A -> Prop :=
| both_none : both R None None
| both_some : forall a b, R a b -> both R (Some a) (Some b).

Inductive same_value : pval -> pval -> Prop :=
| same_int : forall i, same_value (PInt i) (PInt i)
| same_float : forall f, same_value (PFloat f) (PFloat f)
| same_str : forall s, same_value (PStr s) (PStr s)
| same_bool : forall b, same_value (PBool b) (PBool b)
| same_map : forall m m', (forall k, both same_value (assoc k m) (assoc k m')) ->
    same_value (PMap m) (PMap m')
| same_arr : forall a a', Forall2 same_value a a' -> same_value (PArr a) (PArr a')
| same_null : same_value PNull PNull.

Definition same_prefs (p q : prefs) : Prop := forall k, both same_value (get_value p k) (get_value q k).

(** A Rust value: a [HashMap] has each key once, an [i64] is in range. *)
Inductive rust_value : pval -> Prop :=
| rust_int : forall i, (- 2 ^ 63 <= i < 2 ^ 63)%Z -> rust_value (PInt i)
| rust_float : forall f, rust_value (PFloat f)
| rust_str : forall s, rust_value (PStr s)
| rust_bool : forall b, rust_value (PBool b)
| rust_map : forall m, NoDup (map fst m) -> Forall (fun kv => rust_value (snd kv)) m ->
    rust_value (PMap m)
| rust_arr : forall a, Forall rust_value a -> rust_value (PArr a)
| rust_null : rust_value PNull.

(** Nothing in it that JSON, or the way it is written to JSON, gets wrong:
    every number is finite and no key, at any depth, has one of the two
    characters that mean something in a JSON pointer. *)
Inductive storable : pval -> Prop :=
| st_int : forall i, storable (PInt i)
| st_float : forall m e, storable (PFloat (Some (m, e)))
| st_str : forall s, storable (PStr s)
| st_bool : forall b, storable (PBool b)
| st_map : forall m, Forall (fun kv => ordinary (fst kv) /\ storable (snd kv)) m -> storable (PMap m)
| st_arr : forall a, Forall storable a -> storable (PArr a)
| st_null : storable PNull.

(** The same restriction on JSON: keys as above, no integer beyond [i64]. *)
Inductive plain_json : json -> Prop :=
| pj_null : plain_json JNull
| pj_bool : forall b, plain_json (JBool b)
| pj_int : forall n, (n < 2 ^ 63)%N -> plain_json (JNum (NumU n))
| pj_neg : forall z, plain_json (JNum (NumI z))
| pj_float : forall m e, plain_json (JNum (NumF m e))
| pj_str : forall s, plain_json (JStr s)
| pj_arr : forall l, Forall plain_json l -> plain_json (JArr l)
| pj_obj : forall o, Forall (fun kv => ordinary (fst kv) /\ plain_json (snd kv)) o -> plain_json (JObj o).
