(** The relationship helpers: methods Add<Relation> of the objects. *)
From Verif Require Import GoStr Consts GoTypes GoVal Codec OptTable FromJson Options Ident Constructors HelperTable.

(** The condition under which a helper goes on to NewRelationship; for example
    malware.go:84-89, infrastructure.go:52, object.go:271-273. *)
Definition target_ok (k : hcheck) (id : string) : bool :=
  match k with
  | NoCheck => true
  | Valid => is_valid_identifier id
  | ValidFor ts => if is_valid_identifier id then for_types id ts else false
  end.
(** A chain !id.ForType(A) && !id.ForType(B), as in attack.go:47-48, is written as
    ForTypes (data-types.go:172-179). *)
(** recv.Add<Relation>(id, opts...).  The receiver is not a nil pointer. *)
Definition call_helper (rb : string) (now : Z) (pf : string -> Float.flt * bool) (h : helper) (recv : gobj) (id : string) (os : list stix_option) : cres :=
  if target_ok (h_check h) id then
    match obj_id recv with
    | Ok src => construct rb now pf (CRelationship (h_rel h) src id) os
    | _ => Crashed
    end
  else Ret None (Some ErrInvalidParameter).
