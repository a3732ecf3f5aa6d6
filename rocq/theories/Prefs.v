(** mutagenyx_lib/src/preferences.rs: the store of settings, and its
    conversions to and from JSON. *)
From Coq Require Import String List NArith ZArith Bool.
From Verif Require Import Base Json.
Import ListNotations.
Open Scope string_scope.
Open Scope list_scope.

(** [PreferenceValue] (preferences.rs:12-21).  A finite [f64] is [Some (m, e)],
    meaning [m * 2^e]; [None] stands for NaN and the infinities.  A [HashMap]
    is the list of its entries in the order it yields them; theorems quantify
    over all such lists, hence over all orders. *)
Inductive pval : Type :=
| PInt (i : Z)
| PFloat (f : option (Z * Z))
| PStr (s : string)
| PBool (b : bool)
| PMap (m : list (string * pval))
| PArr (a : list pval)
| PNull.

Definition pmap : Type := list (string * pval).

(** [HashMap::insert]: overwrite, or add.  Where a new entry lands in the
    order is arbitrary in Rust; here it comes first. *)
Definition hm_insert {A} (k : string) (v : A) (m : list (string * A)) : list (string * A) :=
  match assoc k m with
  | Some _ => obj_set k v m
  | None => (k, v) :: m
  end.

(** [Value::from(f64)] (serde_json): not finite becomes [null]. *)
Definition jfloat (f : option (Z * Z)) : json :=
  match f with Some (m, e) => JNum (NumF m e) | None => JNull end.

(** [TryFrom<Value> for PreferenceValue] (preferences.rs:23-55).  The cases
    are exhaustive, so the final [Err] (53-54) is unreachable. *)
Fixpoint pval_of_json (j : json) : pval :=
  match as_i64 j with
  | Some i => PInt i
  | None =>
      match as_f64 j with
      | Some f => PFloat (Some f)
      | None =>
          match j with
          | JStr s => PStr s
          | JBool b => PBool b
          | JObj o =>
              PMap ((fix go (o : list (string * json)) (m : pmap) : pmap :=
                       match o with
                       | [] => m
                       | (k, v) :: o => go o (hm_insert k (pval_of_json v) m)
                       end) o [])
          | JArr l => PArr (map pval_of_json l)
          | _ => PNull
          end
      end
  end.

(** [TryFrom<PreferenceValue> for Value] (preferences.rs:57-85). *)
Fixpoint json_of_pval (p : pval) : json :=
  match p with
  | PInt i => jint i
  | PFloat f => jfloat f
  | PStr s => JStr s
  | PBool b => JBool b
  | PMap m =>
      (fix go (m : pmap) (j : json) : json :=
         match m with
         | [] => j
         | (k, v) :: m => go m (set_key j k (json_of_pval v))
         end) m (JObj [])
  | PArr a => JArr (map json_of_pval a)
  | PNull => JNull
  end.

(** [Preferences] (87-91) is its map; [Preferences::new] (95-99). *)
Definition prefs : Type := pmap.
Definition new_prefs : prefs := [].

(** [set_value_for_key] (116-118); the typed setters (255-313) are this with
    the constructor of the type; [set_preferences_for_key] (320-323) stores
    the map. *)
Definition set_value (p : prefs) (k : string) (v : pval) : prefs := hm_insert k v p.
Definition set_int (p : prefs) (k : string) (i : Z) : prefs := hm_insert k (PInt i) p.
Definition set_float (p : prefs) (k : string) (f : option (Z * Z)) : prefs := hm_insert k (PFloat f) p.
Definition set_string (p : prefs) (k : string) (s : string) : prefs := hm_insert k (PStr s) p.
Definition set_bool (p : prefs) (k : string) (b : bool) : prefs := hm_insert k (PBool b) p.
Definition set_map (p : prefs) (k : string) (m : pmap) : prefs := hm_insert k (PMap m) p.
Definition set_array (p : prefs) (k : string) (a : list pval) : prefs := hm_insert k (PArr a) p.
Definition set_prefs (p : prefs) (k : string) (q : prefs) : prefs := hm_insert k (PMap q) p.

(** [get_value_for_key] (125-130), [contains_key] (137-139) and the typed
    getters (146-247): nothing when the value has another type. *)
Definition get_value (p : prefs) (k : string) : option pval := assoc k p.
Definition has_key (p : prefs) (k : string) : bool :=
  match assoc k p with Some _ => true | None => false end.
Definition get_pint (p : prefs) (k : string) : option Z :=
  match assoc k p with Some (PInt i) => Some i | _ => None end.
Definition get_pfloat (p : prefs) (k : string) : option (option (Z * Z)) :=
  match assoc k p with Some (PFloat f) => Some f | _ => None end.
Definition get_pstring (p : prefs) (k : string) : option string :=
  match assoc k p with Some (PStr s) => Some s | _ => None end.
Definition get_pbool (p : prefs) (k : string) : option bool :=
  match assoc k p with Some (PBool b) => Some b | _ => None end.
Definition get_pmap (p : prefs) (k : string) : option pmap :=
  match assoc k p with Some (PMap m) => Some m | _ => None end.
Definition get_parray (p : prefs) (k : string) : option (list pval) :=
  match assoc k p with Some (PArr a) => Some a | _ => None end.
Definition get_prefs (p : prefs) (k : string) : option prefs :=
  match assoc k p with Some (PMap m) => Some m | _ => None end.

(** [len] (326-328) and [is_empty] (331-333). *)
Definition prefs_len (p : prefs) : nat := length p.
Definition prefs_is_empty (p : prefs) : bool := match p with [] => true | _ => false end.

(** [TryFrom<Value> for Preferences] (342-361). *)
Definition prefs_of_json (j : json) : res prefs :=
  match j with
  | JObj o => Ok (fold_left (fun m kv => hm_insert (fst kv) (pval_of_json (snd kv)) m) o [])
  | _ => Err "UnrecognizedJSON"
  end.

(** [TryFrom<Preferences> for Value] (363-375). *)
Definition json_of_prefs (p : prefs) : json :=
  fold_left (fun j kv => set_key j (fst kv) (json_of_pval (snd kv))) p (JObj []).
