(** How much is read. *)
From Verif Require Import GoStr Json GoTypes GoVal CodecSpec FromJson.

(** The number of members of the JSON objects of a document, not counting those
    of nested objects. *)
Definition members_of (j : json) : nat := match j with JObj ms => List.length ms | _ => 0 end.
Definition members (js : list json) : nat := list_sum (map members_of js).
(** The number of extended properties of the objects that were read. *)
Definition properties_of (o : option gobj) : nat := match o with Some ob => List.length (props_of (fst ob) (snd ob)) | None => 0 end.
Definition properties (outs : list (option gobj)) : nat := list_sum (map properties_of outs).
