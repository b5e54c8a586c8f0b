(** Specification for PropStale. *)
From Verif Require Import GoStr Json GoTypes GoVal Codec Collection.

(** No object anywhere in [j] has two members whose names are the same up to
    case. *)
Inductive no_repeats : json -> Prop :=
| NR_null : no_repeats JNull
| NR_bool b : no_repeats (JBool b)
| NR_num l : no_repeats (JNum l)
| NR_str s : no_repeats (JStr s)
| NR_arr l : Forall no_repeats l -> no_repeats (JArr l)
| NR_obj ms : NoDup (map (fun kx : string * json => fold_key (fst kx)) ms) -> Forall (fun kx => no_repeats (snd kx)) ms -> no_repeats (JObj ms).

(** A Go type: no two fields of a struct have the same name. *)
Fixpoint go_type (t : gty) : Prop :=
  match t with
  | GPtr t' | GSlice t' | GMap _ _ t' => go_type t'
  | GStruct _ fs => NoDup (map (fun ft => fm_name (fst ft)) fs) /\ fold_right (fun ft P => go_type (snd ft) /\ P) True fs
  | _ => True
  end.

(** The two values agree everywhere but within lists, and their lists have the
    same lengths. *)
Inductive besides_lists : gval -> gval -> Prop :=
| BL_same v : besides_lists v v
| BL_ptr v w : besides_lists v w -> besides_lists (VPtr v) (VPtr w)
| BL_list l l' : length l = length l' -> besides_lists (VSlice l) (VSlice l')
| BL_map l l' : Forall2 (fun x y => fst x = fst y /\ besides_lists (snd x) (snd y)) l l' -> besides_lists (VMap l) (VMap l')
| BL_struct l l' : Forall2 (fun x y => fst x = fst y /\ besides_lists (snd x) (snd y)) l l' -> besides_lists (VStruct l) (VStruct l')
| BL_dyn t v w : besides_lists v w -> besides_lists (VDyn t v) (VDyn t w).

(** Two collections that hold objects related by [R] under the same identifiers
    and types, in the same order. *)
Definition same_coll {A} (R : A -> A -> Prop) (c c' : coll A) : Prop :=
  order c = order c' /\ no_sort c = no_sort c' /\
  Forall2 (fun b b' => fst b = fst b' /\ Forall2 (fun x y => fst x = fst y /\ R (snd x) (snd y)) (snd b) (snd b')) (objects c) (objects c').
