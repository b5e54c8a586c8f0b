(** What DropCustomOption leaves out. *)
From Verif Require Import GoStr JsonStr StrSpec Json JsonSpec Float Consts GoTypes Schema GoVal Codec CodecSpec Collection FromJson FromJsonSpec.

(** The configuration with and without the drop-custom option. *)
Definition keeping (cf : config) : config := Config (cf_nosort cf) false (cf_handlers cf).
Definition dropping (cf : config) : config := Config (cf_nosort cf) true (cf_handlers cf).

(** [left_out cf j o o']: [o'] is what is left of the object [o] read from [j]
    when custom content is left out.  A custom object without a parser is left
    out, every other object only loses its extended properties. *)
Inductive left_out (cf : config) (j : json) : option gobj -> option gobj -> Prop :=
| lo_none : left_out cf j None None
| lo_custom typ v : json_type j = Some typ -> parser_of cf typ = None -> ~ In typ (akeys builtin_types) ->
    left_out cf j (Some (ty_CustomObject, v)) None
| lo_props typ t v l : json_type j = Some typ -> (parser_of cf typ = None -> In (typ, t) builtin_types /\ props_of t v = []) ->
    left_out cf j (Some (t, add_props t l v)) (Some (t, v)).
