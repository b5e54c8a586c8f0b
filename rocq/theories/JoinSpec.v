(** What it means that two documents were read one after the other. *)
From Verif Require Import GoStr GoTypes Consts Schema GoVal Codec Collection FromJson JsonStr Json.

(** GetID() and GetType() of an object; "" for what no collection holds. *)
Definition id_of (ob : gobj) : string := match obj_id ob with Ok id => id | _ => "" end.
Definition type_of (ob : gobj) : string := match obj_type ob with Ok ty => ty | _ => "" end.

(** [joined c1 c2 c]: [c] is [c1] to which the objects of [c2] were added.  Get
    prefers [c2].  If [c] keeps the order, AllObjects lists the identifiers of
    [c1] and then those of [c2] that are new. *)
Definition joined (c1 c2 c : coll gobj) : Prop :=
  (forall id, get c id = match get c2 id with Some ob => Some ob | None => get c1 id end) /\
  (no_sort c = false -> forall os1 os2 os,
     all_objects c1 (map Some os1) -> all_objects c2 (map Some os2) -> all_objects c (map Some os) ->
     map id_of os = map id_of os1 ++ filter (fun i => negb (mem_str i (map id_of os1))) (map id_of os2)).

(** [one_after_other r1 r2 r]: the outcome [r] is that of reading what gives
    [r1] and then what gives [r2]; the first failure counts. *)
Definition one_after_other (r1 r2 r : res (coll gobj)) : Prop :=
  match r1 with
  | Ok c1 => match r2 with
             | Ok c2 => exists c, r = Ok c /\ joined c1 c2 c
             | _ => r = r2
             end
  | _ => r = r1
  end.

(** The values with a null after each. *)
Definition separated (js : list json) : list json := flat_map (fun j => [j; JNull]) js.
