(** FromJSON: stix.go:953-1162. *)
From Verif Require Import GoStr JsonStr Json Float Consts GoTypes Schema GoVal Codec CodecSpec DataTypes Ident Collection.

(** A STIX object: a pointer to a value of the given type.  Go types of user
    code returned by custom parsers are structs with at most one embedded base
    struct. *)
Definition gobj : Type := (gty * gval)%type.

(** GetID and GetType: the field of the base struct (object.go:124-133,
    288-295, 381-388) or of the type itself (meta.go:150-157, 286-293,
    extension.go:198-205), the map entry for
    CustomObject (extension.go:338-353). *)
Definition field_path (t : gty) (f : string) : fpath :=
  match t with
  | GStruct _ fs =>
      match find (fun ft : fmeta * gty => fm_embed (fst ft)) fs with
      | Some (m, _) => (Some (fm_name m), f)
      | None => (None, f)
      end
  | _ => (None, f)
  end.
(** The method of the object, lines as above; [key] is the map entry of a
    CustomObject. *)
Definition obj_field (f key : string) (o : gobj) : res string :=
  match fst o with
  | GStruct _ _ => match get_path (field_path (fst o) f) (snd o) with VStr s => Ok s | _ => Panic end
  | _ => co_field key (snd o)
  end.
(** GetID (object.go:124-126, 288-290, 381-383, meta.go:150-152, 286-288,
    extension.go:198-200, 338-344) *)
Definition obj_id : gobj -> res string := obj_field "ID" "id".
(** GetType (object.go:131-133, 293-295, 386-388, meta.go:155-157, 291-293,
    extension.go:203-205, 347-353) *)
Definition obj_type : gobj -> res string := obj_field "Type" "type".

(** A custom parser (stix.go:55).  Simplification: it is a function of the JSON
    value, not of the spelling of its text.  [None] is a nil STIXObject. *)
Definition handler : Type := json -> res (option gobj).

(** CollectionOption, stix.go:36-62 *)
Inductive coll_option :=
| NoSort
| DropCustom
| UseParser (typ : string) (h : option handler).

(** The fields of Collection that options set, stix.go:80-84 *)
Record config := Config {
  cf_nosort : bool;
  cf_drop : bool;
  cf_handlers : list (string * option handler)
}.
(** NoSortOption, DropCustomOption, AddCustomParserOption, stix.go:36-62 *)
Definition apply_option (c : config) (o : coll_option) : config :=
  match o with
  | NoSort => Config true (cf_drop c) (cf_handlers c)
  | DropCustom => Config (cf_nosort c) true (cf_handlers c)
  | UseParser t h => Config (cf_nosort c) (cf_drop c) (ainsert t h (cf_handlers c))
  end.
(** New, stix.go:65-73 *)
Definition config_of (opts : list coll_option) : config := fold_left apply_option opts (Config false false []).

(** The keys filterOutNonCustom deletes (stix.go:1134-1162): the name part of
    the tag of every field, "" for an untagged field. *)
Definition tag_keys (fs : list (fmeta * gty)) : list string :=
  flat_map (fun ft : fmeta * gty => let (m, t) := ft in
    if mem_str (fm_name m) base_structs then
      match t with GStruct _ fs' => map (fun ft' => fm_key (fst ft')) fs' | _ => [] end
    else [fm_key m]) fs.
(** filterOutNonCustom, stix.go:1134-1162 *)
Definition filter_out (t : gty) (m : list (string * gval)) : list (string * gval) :=
  match t with
  | GStruct _ fs => filter (fun kv => negb (mem_str (fst kv) (tag_keys fs))) m
  | _ => m
  end.

(** addCustomProperties of the types that have it (object.go:120, 259, 352;
    meta.go:139, 275), stix.go:1114-1123 *)
Definition add_props (t : gty) (l : list (string * gval)) (v : gval) : gval :=
  match l, props_path t with
  | _ :: _, Some p => set_path p (VPtr (VMap l)) v
  | _, _ => v
  end.

(** var peak map[string]interface{}, stix.go:985 *)
Definition peak_ty : gty := GMap "" "string" GIface.

Section FromJSON.
Variable rnd : bool -> N -> Z -> option flt.
Variable cf : config.

(** What obj holds before json.Unmarshal(data, &obj): stix.go:1002-1101.
    [Ok None]: the object is dropped. *)
Definition start (typ : string) (j : json) : res (option gobj) :=
  match alookup typ (cf_handlers cf) with
  | Some (Some h) =>
      do r <- h j;
      match r with
      | Some o => Ok (Some o)
      | None => Panic (* obj becomes a map, obj.(STIXObject) fails (stix.go:1125) *)
      end
  | _ =>
      match alookup typ builtin_types with
      | Some t => Ok (Some (t, zero t))
      | None => if cf_drop cf then Ok None else Ok (Some (ty_CustomObject, VMap []))
      end
  end.

(** stix.go:1103-1129.  HasValidIdentifier only calls GetType when the
    identifier has two parts; GetType does not fail here. *)
Definition finish (c : coll gobj) (peak : list (string * gval)) (j : json) (o : gobj) : res (coll gobj * gval) :=
  let (t, v) := o in
  do v1 <- unmarshal_res (dec rnd j t v);
  let peak1 := if cf_drop cf then peak else filter_out t peak in
  let v2 := if cf_drop cf then v1 else add_props t peak1 v1 in
  do id <- obj_id (t, v2);
  do ty <- obj_type (t, v2);
  let (c1, ok) := add c id ty (t, v2) in
  if ok then Ok (c1, VMap peak1) else Err "failed to add object to collection".

(** One iteration of the loop of processObjects, stix.go:984-1132.  [peak] is
    declared outside of the loop: json.Unmarshal adds to the map that is already
    there. *)
Definition process_object (j : json) (c : coll gobj) (peak0 : gval) : res (coll gobj * gval) :=
  do peak <- unmarshal_res (dec rnd j peak_ty peak0);
  match map_get "type" peak with
  | None => Ok (c, peak)
  | Some tv =>
      do typ <- as_string tv;
      do st <- start typ j;
      match st with
      | None => Ok (c, peak)
      | Some o => finish c (old_map peak) j o
      end
  end.

(** The loop of processObjects, stix.go:984-1132. *)
Fixpoint process_objects (js : list json) (c : coll gobj) (peak : gval) : res (coll gobj) :=
  match js with
  | [] => Ok c
  | j :: js' => do r <- process_object j c peak; process_objects js' (fst r) (snd r)
  end.

(** Bundle, bundle.go:15-25 *)
Definition ty_Bundle : gty :=
  GStruct "Bundle" [(Fmeta "Type" "type" false false, GString "STIXType");
                    (Fmeta "ID" "id" false false, GString "Identifier");
                    (Fmeta "Objects" "objects" true false, GSlice GRaw)].
(** The []json.RawMessage of a decoded value (stix.go:959, 969). *)
Definition raws (v : gval) : list json :=
  match v with VSlice l => flat_map (fun x => match x with VRaw j => [j] | _ => [] end) l | _ => [] end.

(** FromJSON, stix.go:953-982 *)
Definition from_json (s : string) : res (coll gobj) :=
  let c := new_coll (cf_nosort cf) in
  match unmarshal rnd s ty_Bundle (zero ty_Bundle) with
  | Ok b => process_objects (raws (get_field "Objects" b)) c VNil
  | Panic => Panic
  | Err _ =>
      match unmarshal rnd s (GSlice GRaw) VNil with
      | Ok a => process_objects (raws a) c VNil
      | Panic => Panic
      | Err _ => Err "unknown JSON format"
      end
  end.
End FromJSON.

(** json.Marshal of a Bundle (bundle.go:15-25, default encoder); the objects are
    already encoded. *)
Definition bundle_bytes (b : bundle) : string :=
  ("{" ++ q "type" ++ ":" ++ q (quote (b_type b)) ++ "," ++ q "id" ++ ":" ++ q (quote (b_id b)) ++
   match b_objects b with
   | [] => ""
   | l => "," ++ q "objects" ++ ":[" ++ join "," l ++ "]"
   end ++ "}")%string.

(** json.Marshal of an object held in a collection. *)
Definition marshal_obj (o : gobj) : res string := marshal_bytes (fst o) (snd o).
