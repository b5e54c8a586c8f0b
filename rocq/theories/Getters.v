(** GetCreated, GetModified and GetExtendedTopLevelProperties of the objects.
    GetID and GetType are in FromJson.v. *)
From Verif Require Import GoStr Consts GoTypes GoVal Codec CodecSpec DataTypes FromJson.

(** &o.Created.Time, nil for a nil pointer (object.go:136-150) *)
Definition ptr_time (v : gval) : option Z := match v with VPtr (VTime z) => Some z | _ => None end.

(** The methods of the embedded base struct (object.go:136-150, 299-313,
    392-400) or of the type itself (meta.go:161-175, 297-308,
    extension.go:209-217, 357-365).  [f] is "Created" or "Modified". *)
Definition obj_time (f key : string) (o : gobj) : res (option Z) :=
  match fst o with
  | GStruct n fs =>
      let x := get_path (field_path (fst o) f) (snd o) in
      match find (fun ft : fmeta * gty => fm_embed (fst ft)) fs with
      | Some (m, _) => if String.eqb (fm_name m) "STIXCyberObservableObject" then Ok None else Ok (ptr_time x)
      | None =>
          if String.eqb n "ExtensionDefinition" then match ptr_time x with Some z => Ok (Some z) | None => Panic (* &e.Created.Time *) end
          else if String.eqb n "MarkingDefinition" && String.eqb f "Modified" then Ok None
          else Ok (ptr_time x)
      end
  | _ => co_time key (snd o)
  end.
(** GetCreated *)
Definition obj_created : gobj -> res (option Z) := obj_time "Created" "created".
(** GetModified *)
Definition obj_modified : gobj -> res (option Z) := obj_time "Modified" "modified".

(** GetExtendedTopLevelProperties, object.go:154-156, 265-267, 358-360,
    meta.go:145-147, 281-283, extension.go:221-223 and 382-384: the object behind
    the pointer, [VNil] for a nil pointer. *)
Definition obj_extended (o : gobj) : gval :=
  match fst o with
  | GStruct _ _ =>
      match props_path (fst o) with
      | Some p => match get_path p (snd o) with VPtr v => v | _ => VNil end
      | None => VNil
      end
  | _ => snd o
  end.
