(** The loops over Go maps, in any order.  Go's specification leaves open in
    which order [for range] visits a map, and the order changes from one
    execution to the next.  The other files of the model fix one order.  Here
    the functions with such a loop are given again as the set of everything they
    may return, one order chosen per execution of each loop.  Loops over maps in
    the code: the tables of the enumerations (artifact.go:96, extension.go:246,
    network.go:273, network.go:337, opinion.go:114, process.go:135,
    process.go:210, process.go:269, process.go:320, regkey.go:113),
    Extensions.UnmarshalJSON (extension.go:24), the copy of the remaining
    properties (stix.go:1118), valueToMap (stix.go:1223-1255) and the collection's
    listings (stix.go:149-160, 172, 195-944; [all_objects], [typed_all] in
    Collection.v). *)
From Coq Require Import Permutation.
From Verif Require Import GoStr JsonStr Json Float Consts Enums GoTypes Schema GoVal Time Base64 Codec CodecSpec DataTypes Ident Collection FromJson.

(** Every outcome some execution may have. *)
Definition outs (A : Type) : Type := dres A -> Prop.
(** One possible outcome (no map is visited). *)
Definition only {A} (d : dres A) : outs A := fun r => r = d.
(** Two steps, each with any of its outcomes, cf. [dbind] in Codec.v. *)
Definition then_ {A B} (x : outs A) (f : A -> outs B) : outs B := fun r =>
  exists a, x a /\ match a with
                   | DOk v e => exists b, f v b /\ r = match b with DOk w e' => DOk w (e || e') | DAbort => DAbort | DPanic => DPanic end
                   | DAbort => r = DAbort
                   | DPanic => r = DPanic
                   end.

(** The search through the table of an enumeration, visited in the order of
    [tbl] (see [enum_unmarshal] in Codec.v for the lines). *)
Definition first_named (tbl : list (N * string)) (s : string) : gval :=
  match find (fun kv => String.eqb (snd kv) s) tbl with Some (n, _) => VEnum n | None => VEnum 0 end.
(** UnmarshalJSON of an enumeration, the table visited in the order of [tbl]
    (lines at [enum_unmarshal] in Codec.v). *)
Definition enum_unmarshal_in (tbl : list (N * string)) (name : string) (j : json) : dres gval :=
  if String.eqb name "ExtensionType" then
    match j with
    | JNull => DOk (first_named tbl "") false
    | JStr raw => match unq raw with Some s => DOk (first_named tbl s) false | None => DAbort end
    | _ => DAbort
    end
  else if mem_str name ["EncryptionAlgorithm"; "OpinionValue"] then
    match inner_slice (print j) with
    | Ok s => DOk (first_named tbl s) false
    | Err _ => DAbort
    | Panic => DPanic
    end
  else if (String.length (print j) <? 3)%nat then DOk (VEnum 0) false
  else match inner_slice (print j) with
       | Ok s => DOk (first_named tbl s) false
       | Err _ => DAbort
       | Panic => DPanic
       end.
(** The same for every order of the table (artifact.go:96, extension.go:246,
    network.go:273, 337, opinion.go:114, process.go:135, 210, 269, 320,
    regkey.go:113). *)
Definition enum_outs (name : string) (j : json) : outs gval := fun r =>
  exists tbl, Permutation tbl (enum_map name) /\ r = enum_unmarshal_in tbl name j.

(** encoding/json's own loops follow the document (Codec.v: [dec_list],
    [dec_mems], [dec_struct]). *)
Definition list_outs (f : json -> gval -> outs gval) (z : gval) : list json -> list gval -> outs (list gval) :=
  fix go l old :=
    match l with
    | [] => only (DOk [] false)
    | x :: l' => then_ (f x (match old with o :: _ => o | [] => z end)) (fun v =>
                 then_ (go l' (tl old)) (fun vs => only (DOk (v :: vs) false)))
    end.
(** cf. [dec_mems] in Codec.v (encoding/json, decode.go object; stix.go:1104) *)
Definition mems_outs (f : json -> outs gval) : list (string * json) -> list (string * gval) -> outs (list (string * gval)) :=
  fix go ms m :=
    match ms with
    | [] => only (DOk m false)
    | (k, x) :: ms' => then_ (f x) (fun v => go ms' (minsert k v m))
    end.
(** cf. [dec_struct] in Codec.v (encoding/json, decode.go object; stix.go:1104) *)
Definition struct_outs (f : json -> gty -> gval -> outs gval) (fl : list (string * fpath * gty)) :
    list (string * json) -> gval -> outs gval :=
  fix go ms cur :=
    match ms with
    | [] => only (DOk cur false)
    | (k, x) :: ms' =>
        match find_field k fl with
        | None => go ms' cur
        | Some (p, t) => then_ (f x t (get_path p cur)) (fun v => go ms' (set_path p v cur))
        end
    end.

(** Extensions.UnmarshalJSON, extension.go:13-65.  The map of raw messages keeps
    the last member of a name; each entry comes with what decoding it may
    return. *)
Fixpoint kept {A} (l : list (string * A)) : list (string * A) :=
  match l with
  | [] => []
  | (k, x) :: l' => if mem_str k (map fst l') then kept l' else (k, x) :: kept l'
  end.
(** The loop of Extensions.UnmarshalJSON over the entries in the given order,
    extension.go:24-62. *)
Definition ext_visit : list (string * outs gval) -> list (string * gval) -> outs (list (string * gval)) :=
  fix go l m r :=
    match l with
    | [] => r = DOk m false
    | (k, P) :: l' =>
        exists a, P a /\ match a with
                         | DOk v false => go l' (minsert k (VDyn (GPtr (ext_ty k)) (VPtr v)) m) r
                         | DOk _ true => r = DAbort
                         | DAbort => r = DAbort
                         | DPanic => r = DPanic
                         end
    end.
(** The same for every order of the entries, extension.go:24-62. *)
Definition ext_outs (entries : list (string * outs gval)) : outs (list (string * gval)) := fun r =>
  exists l, Permutation l (kept entries) /\ ext_visit l [] r.

Section Outs.
Variable rnd : bool -> N -> Z -> option flt.

(** json.Unmarshal of [j] into a variable of type [t] holding [old]: [dec] of
    Codec.v, the loops in any order.  The types without such a loop are left to
    [dec]. *)
Fixpoint dec_outs (j : json) : gty -> gval -> outs gval :=
  fix dty (t : gty) (old : gval) {struct t} : outs gval :=
    match t with
    | GEnum name => enum_outs name j
    | GPtr t' =>
        match j with
        | JNull => only (DOk VNil false)
        | _ => then_ (dty t' (match old with VPtr v => v | _ => zero t' end)) (fun v => only (DOk (VPtr v) false))
        end
    | GSlice t' =>
        match j with
        | JArr l => then_ (list_outs (fun x o => dec_outs x t' o) (zero t') l (old_list old)) (fun vs => only (DOk (VSlice vs) false))
        | _ => only (dec rnd j t old)
        end
    | GMap _ _ t' =>
        match j with
        | JObj ms => then_ (mems_outs (fun x => dec_outs x t' (zero t')) ms (old_map old)) (fun m => only (DOk (VMap m) false))
        | _ => only (dec rnd j t old)
        end
    | GExt =>
        match j with
        | JObj ms => then_ (ext_outs (map (fun kx => (fst kx, dec_outs (snd kx) (ext_ty (fst kx)) (fresh (ext_ty (fst kx))))) ms))
                           (fun m => only (DOk (VMap m) false))
        | _ => only (dec rnd j t old)
        end
    | GStruct _ fs =>
        match j with
        | JObj ms => struct_outs dec_outs (flat_fields fs) ms old
        | _ => only (dec rnd j t old)
        end
    | _ => only (dec rnd j t old)
    end.

Variable cf : config.

(** addCustomProperties with a copy of the map made entry by entry in the order
    of [l], stix.go:1114-1123. *)
Definition add_props_in (t : gty) (l : list (string * gval)) (v : gval) : gval :=
  add_props t (fold_left (fun m kv => minsert (fst kv) (snd kv) m) l []) v.

(** stix.go:1103-1129, cf. [finish]. *)
Definition finish_outs (c : coll gobj) (peak : list (string * gval)) (j : json) (o : gobj) (r : res (coll gobj * gval)) : Prop :=
  let (t, v) := o in
  exists d, dec_outs j t v d /\
    match unmarshal_res d with
    | Err e => r = Err e
    | Panic => r = Panic
    | Ok v1 =>
        let peak1 := if cf_drop cf then peak else filter_out t peak in
        exists l, Permutation l peak1 /\
          let v2 := if cf_drop cf then v1 else add_props_in t l v1 in
          r = (do id <- obj_id (t, v2);
               do ty <- obj_type (t, v2);
               let (c1, ok) := add c id ty (t, v2) in
               if ok then Ok (c1, VMap peak1) else Err "failed to add object to collection")
    end.

(** stix.go:984-1132, cf. [process_object].  Reading into the map of properties
    visits no map. *)
Definition process_object_outs (j : json) (c : coll gobj) (peak0 : gval) (r : res (coll gobj * gval)) : Prop :=
  match (do peak <- unmarshal_res (dec rnd j peak_ty peak0);
         match map_get "type" peak with
         | None => Ok (peak, None)
         | Some tv => do typ <- as_string tv; do st <- start cf typ j; Ok (peak, st)
         end) with
  | Err e => r = Err e
  | Panic => r = Panic
  | Ok (peak, None) => r = Ok (c, peak)
  | Ok (peak, Some o) => finish_outs c (old_map peak) j o r
  end.

(** The loop of processObjects, stix.go:984-1132, cf. [process_objects]. *)
Fixpoint process_objects_outs (js : list json) (c : coll gobj) (peak : gval) (r : res (coll gobj)) : Prop :=
  match js with
  | [] => r = Ok c
  | j :: js' => exists a, process_object_outs j c peak a /\
                  match a with
                  | Ok (c', peak') => process_objects_outs js' c' peak' r
                  | Err e => r = Err e
                  | Panic => r = Panic
                  end
  end.

(** FromJSON, stix.go:953-982.  Bundle and []json.RawMessage hold neither
    extensions nor enumerations. *)
Definition from_json_outs (s : string) (r : res (coll gobj)) : Prop :=
  let c := new_coll (cf_nosort cf) in
  match unmarshal rnd s ty_Bundle (zero ty_Bundle) with
  | Ok b => process_objects_outs (raws (get_field "Objects" b)) c VNil r
  | Panic => r = Panic
  | Err _ =>
      match unmarshal rnd s (GSlice GRaw) VNil with
      | Ok a => process_objects_outs (raws a) c VNil r
      | Panic => r = Panic
      | Err _ => r = Err "unknown JSON format"
      end
  end.
End Outs.

(** ** Encoding *)
(** valueToMap, stix.go:1170-1257, the extended properties visited in the order
    [visit] gives them.  An object has at most one base struct, so there is one
    such loop per object. *)
Section Visit.
Variable visit : list (string * gval) -> list (string * gval).

(** stix.go:1220-1255, cf. [overlay] in Codec.v. *)
Definition overlay_in (tyname : string) (v : gval) (m : list (string * (gty * gval))) : list (string * (gty * gval)) :=
  if mem_str tyname (base_structs ++ ["MarkingDefinition"; "LanguageContent"]) then
    match get_field "toplevelProperties" v with
    | VPtr (VMap l) => put_all (visit l) m
    | _ => m
    end
  else m.
(** stix.go:1189-1194, cf. [base_to_map] in Codec.v. *)
Definition base_to_map_in (t : gty) (v : gval) (m : list (string * (gty * gval))) : res (list (string * (gty * gval))) :=
  match t, v with
  | GStruct n fs, VStruct vs => do m1 <- put_fields fs vs m; Ok (overlay_in n v m1)
  | _, _ => Err "invalid type"
  end.
(** stix.go:1185-1217, cf. [fields_to_map] in Codec.v. *)
Fixpoint fields_to_map_in (fs : list (fmeta * gty)) (vs : list (string * gval)) (m : list (string * (gty * gval))) :
    res (list (string * (gty * gval))) :=
  match fs, vs with
  | (fm, t) :: fs', (_, v) :: vs' =>
      do m1 <- (if mem_str (fm_name fm) base_structs then base_to_map_in t v m else put_field fm t v m);
      fields_to_map_in fs' vs' m1
  | _, _ => Ok m
  end.
(** valueToMap, stix.go:1170-1257, cf. [value_to_map] in Codec.v. *)
Definition value_to_map_in (t : gty) (v : gval) : res (list (string * (gty * gval))) :=
  match t, v with
  | GStruct n fs, VStruct vs => do m <- fields_to_map_in fs vs []; Ok (overlay_in n v m)
  | _, _ => Err "invalid type"
  end.
(** marshalToJSONHelper (object.go:424-432) and json.Marshal of an object, cf.
    [enc_obj] and [marshal]. *)
Definition marshal_in (t : gty) (v : gval) : res json :=
  if mem_str (ty_name t) helper_types then do m <- value_to_map_in t v; do js <- enc_map m; Ok (JObj js)
  else enc t v.
End Visit.
