(** Specification notions for the codec: well formed values, what of a value
    survives encoding, generic views. *)
From Verif Require Import GoStr JsonStr Json Float Consts Enums GoTypes Schema GoVal Time Base64 Codec.

Definition fmeta_eqb (a b : fmeta) : bool :=
  String.eqb (fm_name a) (fm_name b) && String.eqb (fm_key a) (fm_key b) &&
  Bool.eqb (fm_omit a) (fm_omit b) && Bool.eqb (fm_embed a) (fm_embed b).
Fixpoint gty_eqb (a b : gty) : bool :=
  match a, b with
  | GString x, GString y => String.eqb x y
  | GInt x, GInt y => String.eqb x y
  | GBool, GBool => true
  | GFloat, GFloat => true
  | GEnum x, GEnum y => String.eqb x y
  | GTime, GTime => true
  | GBinary, GBinary => true
  | GPtr x, GPtr y => gty_eqb x y
  | GSlice x, GSlice y => gty_eqb x y
  | GMap n k x, GMap n' k' y => String.eqb n n' && String.eqb k k' && gty_eqb x y
  | GIface, GIface => true
  | GStruct n fs, GStruct n' fs' =>
      String.eqb n n' &&
      (fix go fs fs' := match fs, fs' with
                        | [], [] => true
                        | (m, x) :: r, (m', y) :: r' => fmeta_eqb m m' && gty_eqb x y && go r r'
                        | _, _ => false
                        end) fs fs'
  | GExt, GExt => true
  | GRaw, GRaw => true
  | _, _ => false
  end.

(** The member of an enumeration that the value's name stands for. *)
Definition enum_norm (name : string) (n : N) : N :=
  if existsb (fun kv => N.eqb (fst kv) n) (enum_map name) then n else 0%N.

(** The values that an omitempty tag leaves out, as documented in encoding/json:
    false, 0, nil, and any empty slice, map or string. *)
Definition blank_value (v : gval) : bool :=
  match v with
  | VNil | VBool false | VInt 0%Z | VEnum 0%N | VFloat (FFin _ 0%N _) | VStr EmptyString | VBin EmptyString | VSlice [] | VMap [] => true
  | _ => false
  end.

Section Spec.
Variable rnd : bool -> N -> Z -> option flt.

(** int64 to float64 *)
Definition int_to_float (z : Z) : option flt :=
  let '(m, e) := norm10 (Z.to_N (Z.abs z)) 0 in rnd (z <? 0)%Z m e.

Definition year_ok (x : Z) : bool := ((0 <=? year_of x) && (year_of x <? 10000))%Z.

Definition wf_fields (f : gty -> gval -> bool) : list (fmeta * gty) -> list (string * gval) -> bool :=
  fix go fs vs {struct vs} :=
    match fs, vs with
    | [], [] => true
    | (m, t) :: fs', (n, v) :: vs' => String.eqb n (fm_name m) && f t v && go fs' vs'
    | _, _ => false
    end.

(** [wf t v]: [v] is a value of Go type [t] whose strings are UTF-8, whose
    numbers are in range, whose times have a year from 0 to 9999 and whose
    maps have sorted distinct keys.  Interfaces may hold a value of any type,
    pointers point to a non nil value that is no pointer. *)
Fixpoint wf (t : gty) (v : gval) {struct v} : bool :=
  match v with
  | VNil => match t with GPtr _ | GSlice _ | GMap _ _ _ | GExt | GIface | GBinary => true | _ => false end
  | VStr s => match t with GString _ => utf8b s | _ => false end
  | VInt z => match t with GInt _ => int64_ok z && match int_to_float z with Some _ => true | None => false end | _ => false end
  | VBool _ => match t with GBool => true | _ => false end
  | VFloat f => match t with GFloat => is_f64 rnd f | _ => false end
  | VEnum _ => match t with GEnum _ => true | _ => false end
  | VTime x => match t with GTime => year_ok x | _ => false end
  | VBin _ => match t with GBinary => true | _ => false end
  | VPtr w => match t with
              | GPtr t' => match w with VNil | VPtr _ | VDyn _ _ | VRaw _ => false | _ => true end && wf t' w
              | _ => false
              end
  | VSlice l => match t with GSlice t' => forallb (wf t') l | _ => false end
  | VMap l => match t with
              | GMap _ _ t' => msorted l && forallb (fun kv => utf8b (fst kv) && wf t' (snd kv)) l
              | GExt => msorted l && forallb (fun kv => utf8b (fst kv) &&
                          match snd kv with
                          | VDyn t' w => gty_eqb t' (GPtr (ext_ty (fst kv))) && wf t' w &&
                                         match w with VNil => false | _ => true end
                          | _ => false
                          end) l
              | _ => false
              end
  | VDyn t' w => match t with GIface => wf t' w | _ => false end
  | VStruct vs => match t with GStruct _ fs => forallb (fun ft => utf8b (fm_key (fst ft))) fs && wf_fields wf fs vs | _ => false end
  | VRaw _ => false (* only in Bundle, see FromJson *)
  end.

(** What a JSON reader without knowledge of the Go types sees: strings, float64,
    bool, []interface{} and map[string]interface{}. *)
Definition view_fields (f : gty -> gval -> gval) : list (fmeta * gty) -> list (string * gval) -> list (string * gval) -> list (string * gval) :=
  fix go fs vs m {struct vs} :=
    match fs, vs with
    | (fm, t) :: fs', (_, v) :: vs' =>
        if is_empty (fm_key fm) then go fs' vs' m
        else if fm_omit fm && blank_value v then go fs' vs' m
        else go fs' vs' (minsert (fm_key fm) (f t v) m)
    | _, _ => m
    end.
Fixpoint view (t : gty) (v : gval) {struct v} : gval :=
  match v with
  | VNil => VNil
  | VStr s => dyn_str s
  | VInt z => match int_to_float z with Some f => VDyn GFloat (VFloat f) | None => VNil end
  | VBool b => VDyn GBool (VBool b)
  | VFloat f => VDyn GFloat (VFloat f)
  | VEnum n => match t with GEnum name => dyn_str (enum_string name n) | _ => VNil end
  | VTime x => dyn_str (ts_string x)
  | VBin s => dyn_str (b64_encode s)
  | VPtr w => match t with GPtr t' => view t' w | _ => VNil end
  | VSlice l => match t with GSlice t' => VDyn (GSlice GIface) (VSlice (map (view t') l)) | _ => VNil end
  | VMap l =>
      VDyn (GMap "" "string" GIface)
           (VMap (map (fun kv => (fst kv, view (match t with GMap _ _ t' => t' | _ => GIface end) (snd kv))) l))
  | VDyn t' w => view t' w
  | VStruct vs => match t with
                  | GStruct _ fs => VDyn (GMap "" "string" GIface) (VMap (view_fields view fs vs []))
                  | _ => VNil
                  end
  | VRaw _ => VNil
  end.

(** What remains of a value after json.Marshal and json.Unmarshal into a zero
    variable of the same type: times lose everything below milliseconds,
    undefined enumeration members become the zero value, empty optional values
    inside nested structs become the zero value, interfaces hold the generic
    view. *)
Definition norm_fields (f : gty -> gval -> gval) : list (fmeta * gty) -> list (string * gval) -> list (string * gval) :=
  fix go fs vs {struct vs} :=
    match fs, vs with
    | (fm, t) :: fs', (n, v) :: vs' =>
        (n, if is_empty (fm_key fm) then zero t
            else if fm_omit fm && blank_value v then zero t else f t v) :: go fs' vs'
    | _, _ => []
    end.
Fixpoint norm (t : gty) (v : gval) {struct v} : gval :=
  match v with
  | VNil => match t with GExt => VMap [] | _ => VNil end
  | VEnum n => match t with GEnum name => VEnum (enum_norm name n) | _ => VEnum n end
  | VTime x => VTime (trunc_ms x)
  | VPtr w => match t with GPtr t' => VPtr (norm t' w) | _ => VPtr w end
  | VSlice l => match t with GSlice t' => VSlice (map (norm t') l) | _ => VSlice l end
  | VMap l => match t with
              | GMap _ _ t' => VMap (map (fun kv => (fst kv, norm t' (snd kv))) l)
              | GExt => VMap (map (fun kv => (fst kv,
                          match snd kv with
                          | VDyn (GPtr t') (VPtr w) => VDyn (GPtr t') (VPtr (norm t' w))
                          | x => x
                          end)) l)
              | _ => VMap l
              end
  | VDyn t' w => view t' w
  | VStruct vs => match t with GStruct _ fs => VStruct (norm_fields norm fs vs) | _ => VStruct vs end
  | _ => v
  end.

(** No NaN and no infinity in what is encoded. *)
Definition fin_fields (f : gty -> gval -> bool) : list (fmeta * gty) -> list (string * gval) -> bool :=
  fix go fs vs {struct vs} :=
    match fs, vs with
    | (fm, t) :: fs', (_, v) :: vs' => (is_empty (fm_key fm) || f t v) && go fs' vs'
    | _, _ => true
    end.
Fixpoint fin (t : gty) (v : gval) {struct v} : bool :=
  match v with
  | VFloat FNaN | VFloat (FInf _) => false
  | VPtr w => match t with GPtr t' => fin t' w | _ => true end
  | VSlice l => match t with GSlice t' => forallb (fin t') l | _ => true end
  | VMap l => forallb (fun kv => fin (match t with GMap _ _ t' => t' | _ => GIface end) (snd kv)) l
  | VDyn t' w => fin t' w
  | VStruct vs => match t with GStruct _ fs => fin_fields fin fs vs | _ => true end
  | _ => true
  end.

End Spec.

(** ** Well formed types (checked for the whole schema) *)
Fixpoint nodupb (l : list string) : bool :=
  match l with [] => true | x :: l' => negb (mem_str x l') && nodupb l' end.

(** ASCII names that JSON writes without escapes. *)
Definition plain_key (s : string) : bool := String.eqb (quote s) s && utf8b s.

(** A type the default encoder handles and the decoder gets back: structs have
    no embedded structs, distinct field names and distinct keys. *)
Definition dist_keys (ks : list string) : bool :=
  nodupb (filter (fun k => negb (is_empty k)) ks).
Fixpoint ty_ok (t : gty) : bool :=
  match t with
  | GPtr t' => match t' with GPtr _ | GSlice _ | GIface | GExt | GRaw | GBinary => false | _ => true end && ty_ok t'
  | GSlice t' => ty_ok t'
  | GMap _ _ t' => ty_ok t'
  | GStruct _ fs =>
      nodupb (map (fun ft => fm_name (fst ft)) fs) && dist_keys (map (fun ft => fm_key (fst ft)) fs) &&
      forallb (fun ft => negb (fm_embed (fst ft)) && utf8b (fm_key (fst ft)) && ty_ok (snd ft)) fs
  | _ => true
  end.

(** A top level object type: one level of embedding, at most one embedded
    struct, base structs exactly the embedded ones, all promoted names and keys
    distinct. *)
Definition obj_ok (t : gty) : bool :=
  match t with
  | GStruct n0 fs =>
      negb (mem_str n0 base_structs) &&
      match filter (fun ft : fmeta * gty => fm_embed (fst ft)) fs with
      | [] => true
      | [_] => negb (mem_str n0 ["MarkingDefinition"; "LanguageContent"])
      | _ => false
      end &&
      nodupb (map (fun ft => fm_name (fst ft)) fs) &&
      nodupb (map (fun f => fst (fst f)) (flat_fields fs)) &&
      forallb (fun ft : fmeta * gty => let (m, t') := ft in
        Bool.eqb (fm_embed m) (mem_str (fm_name m) base_structs) &&
        utf8b (fm_key m) && ty_ok t' &&
        (if fm_embed m then
           is_empty (fm_key m) &&
           match t' with GStruct n _ => String.eqb n (fm_name m) | _ => false end
         else true)) fs
  | _ => false
  end.

(** ** Top level objects *)
(** Where the extended properties of an object are stored. *)
Definition props_path (t : gty) : option fpath :=
  match t with
  | GStruct n fs =>
      match find (fun ft : fmeta * gty => fm_embed (fst ft)) fs with
      | Some (m, _) => Some (Some (fm_name m), "toplevelProperties")
      | None => if mem_str n ["MarkingDefinition"; "LanguageContent"] then Some (None, "toplevelProperties") else None
      end
  | _ => None
  end.
Definition props_of (t : gty) (v : gval) : list (string * gval) :=
  match props_path t with
  | Some p => match get_path p v with VPtr (VMap l) => l | _ => [] end
  | None => []
  end.

(** A property is written unless it is a zero value other than a boolean. *)
Definition is_bool_val (v : gval) : bool := match v with VBool _ => true | _ => false end.
Definition written (m : fmeta) (x : gval) : bool := negb (is_empty (fm_key m)) && (is_bool_val x || negb (is_zero x)).
Definition missing (m : fmeta) (x : gval) : bool :=
  negb (is_empty (fm_key m)) && negb (is_bool_val x) && is_zero x && negb (fm_omit m).

(** What remains of an object after marshalToJSONHelper and json.Unmarshal:
    field by field; the extended properties are not read by json.Unmarshal. *)
Definition norm_field (rnd : bool -> N -> Z -> option flt) (m : fmeta) (t : gty) (x : gval) : gval :=
  if is_empty (fm_key m) then zero t else if is_zero x then zero t else norm rnd t x.
Fixpoint norm_flds (g : fmeta -> gty -> gval -> gval) (fs : list (fmeta * gty)) (vs : list (string * gval)) : list (string * gval) :=
  match fs, vs with
  | (m, t) :: fs', (n, x) :: vs' => (n, g m t x) :: norm_flds g fs' vs'
  | _, _ => []
  end.
Definition norm_obj (rnd : bool -> N -> Z -> option flt) (t : gty) (v : gval) : gval :=
  match t, v with
  | GStruct _ fs, VStruct vs =>
      VStruct (norm_flds (fun m t x =>
        if fm_embed m then
          match t, x with
          | GStruct _ fs', VStruct vs' => VStruct (norm_flds (norm_field rnd) fs' vs')
          | _, _ => x
          end
        else norm_field rnd m t x) fs vs)
  | _, _ => v
  end.

(** The JSON names of the type's own properties. *)
Definition own_keys (t : gty) : list string :=
  match t with GStruct _ fs => map (fun f => fst (fst f)) (flat_fields fs) | _ => [] end.
(** [k] names no own property of the type, not even under the case folding of
    encoding/json. *)
Definition free_name (t : gty) (k : string) : bool :=
  negb (existsb (fun k' => String.eqb (fold_key k') (fold_key k)) (own_keys t)).

(** Values that encoding and decoding give back exactly. *)
(** interface{} contents as encoding/json produces them. *)
Fixpoint json_like (v : gval) : bool :=
  match v with
  | VNil => true
  | VDyn (GString "string") (VStr _) | VDyn GBool (VBool _) | VDyn GFloat (VFloat _) => true
  | VDyn (GSlice GIface) (VSlice l) => forallb json_like l
  | VDyn (GMap "" "string" GIface) (VMap l) => forallb (fun kv => json_like (snd kv)) l
  | _ => false
  end.
Definition canon_fields (f : gty -> gval -> bool) : list (fmeta * gty) -> list (string * gval) -> bool :=
  fix go fs vs {struct vs} :=
    match fs, vs with
    | (fm, t) :: fs', (_, v) :: vs' =>
        (if is_empty (fm_key fm) then is_zero v
         else if fm_omit fm && blank_value v then is_zero v else f t v) && go fs' vs'
    | _, _ => true
    end.
Fixpoint canon (t : gty) (v : gval) {struct v} : bool :=
  match v with
  | VNil => match t with GExt => false | _ => true end
  | VEnum n => match t with GEnum name => existsb (fun kv => N.eqb (fst kv) n) (enum_map name) || N.eqb n 0 | _ => true end
  | VTime x => Z.eqb (x mod 1000000) 0
  | VPtr w => match t with GPtr t' => canon t' w | _ => true end
  | VSlice l => match t with GSlice t' => forallb (canon t') l | _ => true end
  | VMap l => match t with
              | GMap _ _ t' => forallb (fun kv => canon t' (snd kv)) l
              | GExt => forallb (fun kv => match snd kv with VDyn (GPtr t') (VPtr w) => canon t' w | _ => true end) l
              | _ => true
              end
  | VDyn t' w => json_like (VDyn t' w)
  | VStruct vs => match t with GStruct _ fs => canon_fields canon fs vs | _ => true end
  | _ => true
  end.

(** [typed t v]: [v] has Go type [t]; in contrast to [wf] nothing is said about
    the contents of strings, numbers and times. *)
Fixpoint typed (t : gty) (v : gval) {struct v} : bool :=
  match v with
  | VNil => match t with GPtr _ | GSlice _ | GMap _ _ _ | GExt | GIface | GBinary | GRaw => true | _ => false end
  | VStr _ => match t with GString _ => true | _ => false end
  | VInt _ => match t with GInt _ => true | _ => false end
  | VBool _ => match t with GBool => true | _ => false end
  | VFloat _ => match t with GFloat => true | _ => false end
  | VEnum _ => match t with GEnum _ => true | _ => false end
  | VTime _ => match t with GTime => true | _ => false end
  | VBin _ => match t with GBinary => true | _ => false end
  | VRaw _ => match t with GRaw => true | _ => false end
  | VPtr w => match t with GPtr t' => typed t' w | _ => false end
  | VSlice l => match t with GSlice t' => forallb (typed t') l | _ => false end
  | VMap l => match t with
              | GMap _ _ t' => msorted l && forallb (fun kv => typed t' (snd kv)) l
              | GExt => msorted l && forallb (fun kv =>
                          match snd kv with
                          | VDyn t' (VPtr w) => gty_eqb t' (GPtr (ext_ty (fst kv))) && typed (ext_ty (fst kv)) w
                          | _ => false
                          end) l
              | _ => false
              end
  | VDyn t' w => match t with GIface => typed t' w | _ => false end
  | VStruct vs => match t with GStruct _ fs => wf_fields typed fs vs | _ => false end
  end.

(** [storable t v]: [v] has Go type [t]; extensions may hold a value of any type
    (OptionExtension), not only what the parser stores. *)
Fixpoint storable (t : gty) (v : gval) {struct v} : bool :=
  match v with
  | VNil => match t with GPtr _ | GSlice _ | GMap _ _ _ | GExt | GIface | GBinary | GRaw => true | _ => false end
  | VStr _ => match t with GString _ => true | _ => false end
  | VInt _ => match t with GInt _ => true | _ => false end
  | VBool _ => match t with GBool => true | _ => false end
  | VFloat _ => match t with GFloat => true | _ => false end
  | VEnum _ => match t with GEnum _ => true | _ => false end
  | VTime _ => match t with GTime => true | _ => false end
  | VBin _ => match t with GBinary => true | _ => false end
  | VRaw _ => match t with GRaw => true | _ => false end
  | VPtr w => match t with GPtr t' => storable t' w | _ => false end
  | VSlice l => match t with GSlice t' => forallb (storable t') l | _ => false end
  | VMap l => match t with
              | GMap _ _ t' => msorted l && forallb (fun kv => storable t' (snd kv)) l
              | GExt => msorted l && forallb (fun kv => storable GIface (snd kv)) l
              | _ => false
              end
  | VDyn t' w => match t with GIface => storable t' w | _ => false end
  | VStruct vs => match t with GStruct _ fs => wf_fields storable fs vs | _ => false end
  end.

(** Objects that a round trip gives back exactly: no extended properties, every
    property empty or [canon]. *)
Definition canon_field (ft : fmeta * gty) (nx : string * gval) : bool :=
  is_zero (snd nx) || (negb (is_empty (fm_key (fst ft))) && canon (snd ft) (snd nx)).
Definition canon_obj (t : gty) (v : gval) : bool :=
  match t, v with
  | GStruct _ fs, VStruct vs =>
      forallb (fun c : (fmeta * gty) * (string * gval) => let (ft, nx) := c in
        if fm_embed (fst ft) then
          match snd ft, snd nx with
          | GStruct _ fs', VStruct vs' => forallb (fun c' : (fmeta * gty) * (string * gval) => canon_field (fst c') (snd c')) (combine fs' vs')
          | _, _ => false
          end
        else canon_field ft nx) (combine fs vs)
  | _, _ => false
  end.

(** Round trip of an object as json.Marshal and json.Unmarshal see it: types
    with marshalToJSONHelper, the others by default encoding. *)
Definition norm_top (rnd : bool -> N -> Z -> option flt) (t : gty) (v : gval) : gval :=
  if mem_str (ty_name t) helper_types then norm_obj rnd t v else norm rnd t v.
Definition canon_top (t : gty) (v : gval) : bool :=
  if mem_str (ty_name t) helper_types then canon_obj t v else canon t v.
