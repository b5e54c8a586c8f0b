(** Go types of the library's data, as far as reflection and encoding/json see
    them.  The tables in Schema.v are built from these. *)
From Verif Require Import GoStr.

(** Struct field: Go name, JSON key of the tag ("" without tag), omitempty,
    embedded. *)
Record fmeta := Fmeta { fm_name : string; fm_key : string; fm_omit : bool; fm_embed : bool }.

(** [GString n]: a type with underlying type string and name [n].
    [GInt n]: int or int64.  [GEnum n]: one of the ten enumerations (uint8 with
    its own MarshalJSON/UnmarshalJSON).  [GTime]: Timestamp (data-types.go:433).
    [GBinary]: Binary (data-types.go:19).  [GMap n k t]: map with key type [k]
    (underlying string) and named type [n] ("" if unnamed).  [GIface]:
    interface{}.  [GExt]: Extensions (extension.go).  [GRaw]: json.RawMessage
    (bundle.go:24). *)
Inductive gty :=
| GString (name : string)
| GInt (name : string)
| GBool
| GFloat
| GEnum (name : string)
| GTime
| GBinary
| GPtr (t : gty)
| GSlice (t : gty)
| GMap (name key : string) (t : gty)
| GIface
| GStruct (name : string) (fields : list (fmeta * gty))
| GExt
| GRaw.

(** reflect.Kind values passed to setField (option.go). *)
Inductive gkind := KString | KPtr | KBool | KSlice | KInt | KInt64 | KFloat64 | KMap | KUint8 | KStruct.
