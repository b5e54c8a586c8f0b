(** Which members of the objects of a document reach a later object. *)
From Verif Require Import GoStr JsonStr StrSpec Json JsonSpec Float Consts GoTypes Schema GoVal Codec CodecSpec Collection FromJson FromJsonSpec.

(** [owns k j]: [j] states a built in type that has a property [k]. *)
Definition owns (k : string) (j : json) : Prop :=
  exists typ t, json_type j = Some typ /\ In (typ, t) builtin_types /\ In k (own_keys t).

(** [carried k js x]: after the values [js] the member [k] is still around, with
    value [x].  It is the last member of that name, its object and the objects
    after it have no property of that name, and no null came after it. *)
Definition carried (k : string) (js : list json) (x : json) : Prop :=
  exists a j b, js = a ++ j :: b /\ member k j = Some x /\ ~ owns k j /\
    Forall (fun j' => (exists ms, j' = JObj ms) /\ member k j' = None /\ ~ owns k j') b.

(** [reaching k js x]: [x] is the last member [k] of the values [js], and no null
    came after it. *)
Definition reaching (k : string) (js : list json) (x : json) : Prop :=
  exists a j b, js = a ++ j :: b /\ member k j = Some x /\ Forall (fun j' => (exists ms, j' = JObj ms) /\ member k j' = None) b.
(** [x] is the name of a built in type, as a JSON string. *)
Definition names_builtin (x : json) : Prop := exists raw typ, x = JStr raw /\ unq raw = Some typ /\ In typ (akeys builtin_types).

(** [nothing_more a j]: what the values [a] carry to [j] are members [j] has
    itself or properties of its type. *)
Definition nothing_more (a : list json) (j : json) : Prop := forall k x, k <> "" -> member k j = None -> ~ owns k j -> ~ carried k a x.
