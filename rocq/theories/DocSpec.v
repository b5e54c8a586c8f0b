(** What exactly a document is read as: a walk over its JSON values that carries
    along the names seen so far. *)
From Verif Require Import GoStr JsonStr Json StrSpec JsonSpec Float Consts GoTypes Schema GoVal Codec CodecSpec Ident Collection FromJson FromJsonSpec.

(** Member names with the generic Go value last seen for each. *)
Definition memory : Type := string -> option gval.
Definition nothing : memory := fun _ => None.

(** [key_of t k]: a field of the struct type [t], or of the base struct it
    embeds, is tagged with the name [k] ("" for a field without a tag). *)
Inductive key_of : gty -> string -> Prop :=
| key_own n fs m t : In (m, t) fs -> ~ In (fm_name m) base_structs -> key_of (GStruct n fs) (fm_key m)
| key_base n fs m n' fs' m' t' : In (m, GStruct n' fs') fs -> In (fm_name m) base_structs -> In (m', t') fs' ->
    key_of (GStruct n fs) (fm_key m').

Section Walk.
Variable rnd : bool -> N -> Z -> option flt.
Variable cf : config.

(** [M'] is [M] overridden by the members [ms]; of members with the same name the
    last counts, and all have to have a generic value. *)
Definition overridden (M : memory) (ms : list (string * json)) (M' : memory) : Prop :=
  (forall k x, In (k, x) ms -> exists y, generic rnd x = Ok y) /\
  forall k, match last_member k ms with
            | Some x => exists y, generic rnd x = Ok y /\ M' k = Some y
            | None => M' k = M k
            end.

(** The Go value that receives a JSON object [j] of type [typ]. *)
Inductive receiver (typ : string) (j : json) : gobj -> Prop :=
| rc_parser h o : parser_of cf typ = Some h -> h j = Ok (Some o) -> receiver typ j o
| rc_builtin t : parser_of cf typ = None -> In (typ, t) builtin_types -> receiver typ j (t, zero t)
| rc_custom : parser_of cf typ = None -> ~ In typ (akeys builtin_types) -> cf_drop cf = false ->
    receiver typ j (ty_CustomObject, VMap []).

(** [l] lists [M], sorted by name. *)
Definition lists (l : list (string * gval)) (M : memory) : Prop :=
  msorted l = true /\ forall k, alookup k l = M k.

(** [step M j o M']: after the names [M], the JSON value [j] yields the object [o]
    ([None]: nothing) and leaves the names [M']. *)
Inductive step (M : memory) : json -> option gobj -> memory -> Prop :=
| step_null : step M JNull None nothing
| step_untyped ms M1 : overridden M ms M1 -> M1 "type" = None -> step M (JObj ms) None M1
| step_dropped ms M1 typ : overridden M ms M1 -> M1 "type" = Some (dyn_str typ) ->
    parser_of cf typ = None -> ~ In typ (akeys builtin_types) -> cf_drop cf = true ->
    step M (JObj ms) None M1
| step_plain ms M1 typ t v0 v : overridden M ms M1 -> M1 "type" = Some (dyn_str typ) ->
    receiver typ (JObj ms) (t, v0) -> unmarshal rnd (print (JObj ms)) t v0 = Ok v -> cf_drop cf = true ->
    step M (JObj ms) (Some (t, v)) M1
| step_object ms M1 typ t v0 v l M2 : overridden M ms M1 -> M1 "type" = Some (dyn_str typ) ->
    receiver typ (JObj ms) (t, v0) -> unmarshal rnd (print (JObj ms)) t v0 = Ok v -> cf_drop cf = false ->
    (forall k, (key_of t k -> M2 k = None) /\ (~ key_of t k -> M2 k = M1 k)) -> lists l M2 ->
    step M (JObj ms) (Some (t, add_props t l v)) M2.

(** [walk M js os M']: the same for a list of JSON values. *)
Inductive walk : memory -> list json -> list (option gobj) -> memory -> Prop :=
| walk_nil M : walk M [] [] M
| walk_cons M j o M1 js os M2 : step M j o M1 -> walk M1 js os M2 -> walk M (j :: js) (o :: os) M2.

(** [crash M j]: after the names [M], reading [j] panics. *)
Inductive crash (M : memory) : json -> Prop :=
| crash_type ms M1 y : overridden M ms M1 -> M1 "type" = Some y -> (forall typ, y <> dyn_str typ) -> crash M (JObj ms)
| crash_parser ms M1 typ h : overridden M ms M1 -> M1 "type" = Some (dyn_str typ) ->
    parser_of cf typ = Some h -> h (JObj ms) = Panic \/ h (JObj ms) = Ok None -> crash M (JObj ms)
| crash_decode ms M1 typ t v0 : overridden M ms M1 -> M1 "type" = Some (dyn_str typ) ->
    receiver typ (JObj ms) (t, v0) -> unmarshal rnd (print (JObj ms)) t v0 = Panic -> crash M (JObj ms)
| crash_add j ob M1 : step M j (Some ob) M1 -> obj_id ob = Panic \/ obj_type ob = Panic -> crash M j.
End Walk.

(** A custom object whose identifier is valid for its type, without parser for
    the type. *)
Definition own_custom (rnd : bool -> N -> Z -> option flt) (cf : config) (ob : gobj) : Prop :=
  exists m name id, ob = (ty_CustomObject, VMap m) /\ name <> "" /\ ~ In name (akeys builtin_types) /\ parser_of cf name = None /\
    obj_type ob = Ok name /\ obj_id ob = Ok id /\ has_valid_identifier id name = true /\ wf rnd ty_CustomObject (VMap m) = true.

(** [returns M ob o M']: after the names [M], the encoding of the object [ob] is
    read as [o] and leaves the names [M'].  Its own fields come back in normal
    form; the names left by earlier objects become extended properties. *)
Inductive returns (rnd : bool -> N -> Z -> option flt) (cf : config) (M : memory) : gobj -> option gobj -> memory -> Prop :=
| ret_builtin t v l M' : In t (map snd builtin_types) -> cf_drop cf = false ->
    (forall k, (key_of t k -> M' k = None) /\
               (~ key_of t k -> M' k = match alookup k (props_of t v) with Some x => Some (norm rnd GIface x) | None => M k end)) ->
    lists l M' -> returns rnd cf M (t, v) (Some (t, add_props t l (norm_top rnd t v))) M'
| ret_custom m M' : cf_drop cf = false ->
    (forall k, M' k = match alookup k m with Some x => Some (norm rnd GIface x) | None => M k end) ->
    returns rnd cf M (ty_CustomObject, VMap m) (Some (ty_CustomObject, norm rnd ty_CustomObject (VMap m))) M'
| ret_plain t v M' : In t (map snd builtin_types) -> cf_drop cf = true -> returns rnd cf M (t, v) (Some (t, norm_top rnd t v)) M'
| ret_dropped m M' : cf_drop cf = true -> returns rnd cf M (ty_CustomObject, VMap m) None M'.
Inductive return_all (rnd : bool -> N -> Z -> option flt) (cf : config) : memory -> list gobj -> list (option gobj) -> Prop :=
| ra_nil M : return_all rnd cf M [] []
| ra_cons M ob o M' obs os : returns rnd cf M ob o M' -> return_all rnd cf M' obs os -> return_all rnd cf M (ob :: obs) (o :: os).
