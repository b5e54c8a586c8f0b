(** Identifiers: data-types.go:158-228. *)
From Verif Require Import GoStr Uuid Sha1.

(** Identifier.ForType, data-types.go:166-168. *)
Definition for_type (id typ : string) : bool := has_prefix typ id.

(** Identifier.ForTypes, data-types.go:172-179. *)
Fixpoint for_types (id : string) (typs : list string) : bool :=
  match typs with
  | [] => false
  | t :: ts => if for_type id t then true else for_types id ts
  end.

(** IsValidIdentifier, data-types.go:217-228. *)
Definition is_valid_identifier (id : string) : bool :=
  match split_dd id with
  | [_; u] => match uuid_parse u with Some _ => true | None => false end
  | _ => false
  end.

(** HasValidIdentifier, data-types.go:182-195, on the values GetID() and
    GetType() of the object. *)
Definition has_valid_identifier (id typ : string) : bool :=
  match split_dd id with
  | [p0; u] =>
      if negb (String.eqb p0 typ) then false
      else if String.eqb p0 "" then false
      else match uuid_parse u with Some _ => true | None => false end
  | _ => false
  end.

(** CyberObservableNamespace, data-types.go:199. *)
Definition cyber_observable_namespace : string :=
  match uuid_parse "00abedb4-aa42-466c-9c01-fed23315a9b7" with Some u => u | None => "" end.

(** NewIdentifier, data-types.go:205-208; [r] = the 16 random bytes. *)
Definition new_identifier (r typ : string) : string :=
  (typ ++ "--" ++ uuid_string (uuid_v4 r))%string.

(** NewObservableIdentifier, data-types.go:211-214. *)
Definition new_observable_identifier (value typ : string) : string :=
  (typ ++ "--" ++ uuid_string (uuid_v5 cyber_observable_namespace value))%string.

