(** Specification only (models no code): JSON values that differ in the order of
    members. *)
From Coq Require Import Permutation.
From Verif Require Import GoStr Json.

(** [reordered j j']: the same value with the members of its objects, at any
    depth, in any other order. *)
Inductive reordered : json -> json -> Prop :=
| ro_same j : reordered j j
| ro_arr (l : list (json * json)) : (forall x y, In (x, y) l -> reordered x y) -> reordered (JArr (map fst l)) (JArr (map snd l))
| ro_obj (l : list (string * json * json)) ms ms' :
    Permutation ms (map (fun m => (fst (fst m), snd (fst m))) l) -> Permutation ms' (map (fun m => (fst (fst m), snd m)) l) ->
    (forall k x y, In (k, x, y) l -> reordered x y) -> reordered (JObj ms) (JObj ms').
