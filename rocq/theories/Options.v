(** Options: option.go. *)
From Verif Require Import GoStr Json Float Consts GoTypes Schema OptTable GoVal Codec CodecSpec FromJson.

(** reflect.Kind of a field.  None: a kind no option asks for. *)
Definition kind_of (t : gty) : option gkind :=
  match t with
  | GString _ => Some KString
  | GInt n => if String.eqb n "int64" then Some KInt64 else Some KInt
  | GBool => Some KBool
  | GFloat => Some KFloat64
  | GEnum _ => Some KUint8
  | GTime | GStruct _ _ => Some KStruct
  | GBinary | GSlice _ | GRaw => Some KSlice
  | GPtr _ => Some KPtr
  | GMap _ _ _ | GExt => Some KMap
  | GIface => None
  end.
(** f.Kind() != kind, option.go:1473 *)
Definition kind_eqb (a b : gkind) : bool :=
  match a, b with
  | KString, KString | KPtr, KPtr | KBool, KBool | KSlice, KSlice | KInt, KInt | KInt64, KInt64
  | KFloat64, KFloat64 | KMap, KMap | KUint8, KUint8 | KStruct, KStruct => true
  | _, _ => false
  end.

(** reflect.Value.Set requires assignability: identical types, or identical
    underlying types one of which has no name. *)
Definition assignable (from to : gty) : bool :=
  gty_eqb from to ||
  match from, to with
  | GMap n k t, GMap n' k' t' => (is_empty n || is_empty n') && String.eqb k k' && gty_eqb t t'
  | GMap n k t, GExt => is_empty n && String.eqb k "string" && gty_eqb t GIface
  | _, _ => false
  end.

(** CanSet: the field is exported. *)
Definition exported (f : string) : bool :=
  match f with String c _ => (65 <=? N_of_ascii c)%N && (N_of_ascii c <=? 90)%N | EmptyString => false end.
(** A field declared in the struct itself (reflect.Value.FieldByName,
    option.go:1504, 1513). *)
Definition own_field (fs : list (fmeta * gty)) (f : string) : option gty :=
  match find (fun ft : fmeta * gty => String.eqb (fm_name (fst ft)) f) fs with Some (_, t) => Some t | None => None end.
(** reflect.Value.FieldByName: a field of the struct, or a field promoted from
    one embedded struct. *)
Definition field_by_name (fs : list (fmeta * gty)) (f : string) : option (fpath * gty) :=
  match own_field fs f with
  | Some t => Some ((None, f), t)
  | None =>
      match flat_map (fun ft : fmeta * gty => let (m, t) := ft in
              if fm_embed m then
                match t with
                | GStruct _ fs' => match own_field fs' f with Some t' => [((Some (fm_name m), f), t')] | None => [] end
                | _ => []
                end
              else []) fs with
      | [x] => Some x
      | _ => None
      end
  end.

(** getFieldFromBaseStruct, option.go:1501-1526 *)
Fixpoint base_field (bases : list string) (fs : list (fmeta * gty)) (f : string) : res (option (fpath * gty)) :=
  match bases with
  | [] => Ok None
  | b :: bases' =>
      match own_field fs b with
      | None => base_field bases' fs f
      | Some (GStruct _ fs') =>
          match own_field fs' f with
          | Some t => if exported f then Ok (Some ((Some b, f), t)) else base_field bases' fs f
          | None => base_field bases' fs f
          end
      | Some _ => Err "base struct is not of struct type"
      end
  end.
(** baseStructs, option.go:1499 *)
Definition base_structs_opt : list string := ["STIXCyberObservableObject"; "STIXDomainObject"].
(** getFieldFromBaseStruct, option.go:1501-1526: the base structs, then the
    struct itself. *)
Definition get_field_from_base (fs : list (fmeta * gty)) (f : string) : res (fpath * gty) :=
  do r <- base_field base_structs_opt fs f;
  match r with
  | Some x => Ok x
  | None =>
      match field_by_name fs f with
      | Some x => if exported f then Ok x else Err "field not found"
      | None => Err "field not found"
      end
  end.

(** setField, option.go:1462-1479, with reflectValue, option.go:1481-1497.  The
    first result is the object after the call. *)
Definition set_field_opt (t : gty) (f : string) (vt : gty) (x : gval) (k : gkind) (v : gval) : gval * res unit :=
  match t with
  | GStruct _ fs =>
      match get_field_from_base fs f with
      | Ok (p, ft) =>
          if match kind_of ft with Some k' => kind_eqb k k' | None => false end then
            if assignable vt ft then (set_path p x v, Ok tt) else (v, Panic)
          else (v, Err "field is of another kind")
      | Err e => (v, Err e)
      | Panic => (v, Panic)
      end
  | _ => (v, Err "object has to be a pointer to struct")
  end.

(** findFieldForExtension, option.go:176-210 *)
Definition ext_bases : list string := ["STIXCyberObservableObject"; "STIXDomainObject"; "STIXRelationshipObject"].
(** findFieldForExtension, option.go:176-210: the last base struct found, else
    the struct itself. *)
Definition find_extension_field (fs : list (fmeta * gty)) : option (fpath * gty) :=
  match fold_left (fun acc b => match own_field fs b with Some (GStruct _ fs') => Some (b, fs') | _ => acc end) ext_bases None with
  | Some (b, fs') => match own_field fs' "Extensions" with Some t => Some ((Some b, "Extensions"), t) | None => None end
  | None => field_by_name fs "Extensions"
  end.
(** OptionExtension, option.go:147-174 *)
Definition set_extension (t : gty) (name : string) (x : gval) (v : gval) : gval * res unit :=
  match t with
  | GStruct _ fs =>
      match find_extension_field fs with
      | Some (p, GExt) => (set_path p (VMap (minsert name x (old_map (get_path p v)))) v, Ok tt)
      | Some (_, GMap _ _ _) => (v, Panic)
      | _ => (v, Err "object can not have extensions")
      end
  | _ => (v, Err "object has to be a pointer to struct")
  end.

(** A STIXOption value: nil, one of the options of the table with its argument,
    or OptionExtension. *)
Inductive stix_option :=
| ONil
| OField (r : optrow) (x : gval)
| OExt (name : string) (x : gval).
(** opt(obj), option.go:1455; a nil option is skipped, option.go:1452-1454. *)
Definition apply_opt (t : gty) (o : stix_option) (v : gval) : gval * res unit :=
  match o with
  | ONil => (v, Ok tt)
  | OField r x => set_field_opt t (or_field r) (or_ty r) x (or_kind r) v
  | OExt n x => set_extension t n x v
  end.
(** applyOptions, option.go:1450-1460 *)
Fixpoint apply_opts (t : gty) (os : list stix_option) (v : gval) : gval * res unit :=
  match os with
  | [] => (v, Ok tt)
  | o :: os' =>
      match apply_opt t o v with
      | (v', Ok _) => apply_opts t os' v'
      | r => r
      end
  end.
